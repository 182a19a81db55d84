(** Proofs for C23 - C25, C27, C28, fifth part: declarations, statements and programs. *)
From Verif Require Import Base AstModel DtypeModel SymtabModel SrtModel ResolverModel TypeSpec TypeProofs TypeProofs2 ElabSpec ElabProofs ElabProofs2 ElabProofs3 ElabProofs4.
Local Open Scope Z_scope.

(** * Labels *)
(** between the two states the case values [vs] and [n] default labels were met *)
Record labels (vs : list Z) (n : nat) (st st' : rst) : Prop := {
  lb_loop : r_loop st' = r_loop st;
  lb_ret : r_ret st' = r_ret st;
  lb_cases : r_cases st' = option_map (fun l => l ++ vs) (r_cases st);
  lb_nodup : forall l, r_cases st = Some l -> NoDup l -> NoDup (l ++ vs);
  lb_default : r_default st' = r_default st || negb (Nat.eqb n 0);
  lb_one : ((if r_default st then 1 else 0) + n <= 1)%nat
}.
Lemma labels_none st st' : r_loop st' = r_loop st -> r_ret st' = r_ret st -> r_cases st' = r_cases st -> r_default st' = r_default st -> labels [] 0 st st'.
Proof.
  intros A B C D. split; auto.
  - rewrite C. destruct (r_cases st); cbn; [now rewrite app_nil_r | reflexivity].
  - intros l _ N. now rewrite app_nil_r.
  - cbn. now rewrite orb_false_r.
  - destruct (r_default st); lia.
Qed.
Lemma labels_refl st : labels [] 0 st st.
Proof. now apply labels_none. Qed.
Lemma labels_calm st st' : calm st st' -> labels [] 0 st st'.
Proof. intros [A B C D _ _]. now apply labels_none. Qed.
Lemma labels_quiet st st' : quiet st st' -> labels [] 0 st st'.
Proof. intros [A B C D _ _]. now apply labels_none. Qed.
Lemma labels_trans vs n ws m a b c : labels vs n a b -> labels ws m b c -> labels (vs ++ ws) (n + m) a c.
Proof.
  intros [A1 A2 A3 A4 A5 A6] [B1 B2 B3 B4 B5 B6]. split; try congruence.
  - rewrite B3, A3. destruct (r_cases a); cbn; [now rewrite app_assoc | reflexivity].
  - intros l L N. rewrite app_assoc. apply B4; [now rewrite A3, L | auto].
  - rewrite B5, A5. destruct (r_default a), n, m; reflexivity.
  - rewrite A5 in B6. destruct (r_default a), n; cbn in *; lia.
Qed.
Lemma labels_calm_l vs n a b c : calm a b -> labels vs n b c -> labels vs n a c.
Proof. intros H. apply (labels_trans [] 0). now apply labels_calm. Qed.
Lemma labels_quiet_l vs n a b c : quiet a b -> labels vs n b c -> labels vs n a c.
Proof. intros H. apply (labels_trans [] 0). now apply labels_quiet. Qed.
Lemma labels_same_r vs n a b c : labels vs n a b -> labels [] 0 b c -> labels vs n a c.
Proof. intros H K. pose proof (labels_trans _ _ _ _ _ _ _ H K) as L. now rewrite app_nil_r, Nat.add_0_r in L. Qed.
Definition ctx (st : rst) : context := mkcontext (r_loop st) (match r_cases st with Some _ => true | None => false end) (r_ret st).
Lemma ctx_labels vs n st st' : labels vs n st st' -> ctx st' = ctx st.
Proof. intros [A B C _ _ _]. unfold ctx. rewrite A, B, C. now destruct (r_cases st). Qed.

Record decl_ok (st : rst) (a : ast) (s : srt) (st' : rst) : Prop := {
  dk_decl : declaration_rule (env_of st) a s (env_of st');
  dk_inv : inv st';
  dk_calm : calm st st';
  dk_type : exists cs, s = Srt SRT_DECL_LIST None SPNone cs
}.
Record stmt_ok (st : rst) (a : ast) (s : srt) (st' : rst) : Prop := {
  sk_stmt : stmt (ctx st) (env_of st) a s (env_of st');
  sk_inv : inv st';
  sk_scoped : scoped st st';
  sk_labels : labels (cases_of s) (defaults_of s) st st';
  sk_expr : forall e, s = stmt_node SRT_EXPR_STMT [e] -> exists d, has e d /\ vclean d = true
}.
Lemma quiet_scoped st st' : quiet st st' -> scoped st st'.
Proof. now intros []. Qed.
(** changes that no one outside the function sees *)
Definition same_place (st st' : rst) : Prop := r_tu st' = r_tu st /\ r_scope st' = r_scope st.
Lemma place_scoped st st' : same_place st st' -> scoped st st'.
Proof. intros [A B]. split; [exists []; now rewrite A, app_nil_r |]. rewrite B. destruct (r_scope st); [| exact I]. exists []. now rewrite app_nil_r. Qed.

Section Stmt.
Variable k : knot.
Hypothesis KE : forall a st s st', inv st -> k_expr k a st = Ok (Some s, st') -> expr_ok st a s st'.
Hypothesis KS : forall a st d st', inv st -> k_specs k a st = Ok (Some d, st') -> specs_ok st (ast_children a) d st'.
Hypothesis KD : forall td base socket a st n ls st', inv st -> clean base = true ->
  k_declor k (spec_of td base) socket a st = Ok (Some (n, ls), st') -> declor_ok st td base socket a n ls st'.
Hypothesis KI : forall d a st s st', inv st -> vclean d = true -> r_off st = 0 -> k_init k d false a st = Ok (Some s, st') -> init_ok st d a s st'.
Hypothesis KM : forall a st s st', inv st -> k_stmt k a st = Ok (Some s, st') -> stmt_ok st a s st'.

(** ** Declarations *)
Lemma init_declarators_ok td base : clean base = true -> forall l st ss st', inv st -> rmap (resolve_init_declarator k (spec_of td base)) l st = Ok (Some ss, st') ->
  init_declarators (env_of st) td base l ss (env_of st') /\ inv st' /\ calm st st'.
Proof.
  intros C. induction l as [| a l IH]; intros st ss st' I H.
  - cbn in H. rinv. splits; auto using calm_refl. constructor.
  - apply rmap_cons in H as (b & st1 & bs & F & H & ->). unfold resolve_init_declarator in F.
    apply bind_ok in F as (da & DA & F). apply child_ok in DA. apply rbind_some in F as ([on ls] & st2 & DD & F). cbv zeta in F.
    destruct (whole_declarator k KD _ _ _ _ _ _ _ I C DD) as (E1 & E2 & E3 & E4).
    set (d := if td then DTYPE_TYPEDEF (dtype_connect ls base) else dtype_connect ls base) in *.
    assert (F' : (do n <- deref on;
       do b <- sym_can_define (r_syms st2) n;
       if negb b then rerr st2
       else if dtype_isincomplete d then rerr st2
       else
         do syms <- (if Nat.eqb (length (r_syms st2)) 1 || negb (dtype_isobject d) then sym_define_label (r_syms st2) n d else sym_define_memory (r_syms st2) n d);
         if Nat.eqb (nchildren a) 1 then rok (new_srt SRT_INIT_DECL [new_identifier_srt SRT_IDENT_DECL d n]) (set_syms syms st2)
         else
           do ia <- child a 1;
           do (x, st) <- k_init k d false ia (set_off 0 (set_syms syms st2));
           match x with
           | None => rerr (set_off (-1) st)
           | Some i => rok (new_srt SRT_INIT_DECL [new_identifier_srt SRT_IDENT_DECL d n; i]) (set_off (-1) st)
           end)%res = Ok (Some b, st1)).
    { subst d. destruct td; [exact F |]. cbn [spec_of] in F. destruct base; try exact F; discriminate. }
    clear F. apply bind_ok in F' as (n & N & F). apply deref_ok in N. subst on. apply bind_ok in F as (u & U & F). destruct u; cbn [negb] in F; [| discriminate].
    destruct (dtype_isincomplete d) eqn:IC; [discriminate |]. apply bind_ok in F as (syms & SY & F).
    assert (VD : vclean d = true) by (subst d; destruct td; [exact E2 | now apply clean_vclean]).
    assert (DE : declares (e_syms (env_of st2)) n d syms).
    { unfold declares. cbn [e_syms env_of]. destruct (Nat.eqb (length (r_syms st2)) 1); [exact SY |]. cbn [orb] in SY. destruct (dtype_isobject d) eqn:O; cbn [negb] in SY.
      - left. split; [now apply isobject_spec | exact SY].
      - right. split; [now apply isobject_false | exact SY]. }
    assert (I2 : inv (set_syms syms st2)).
    { split; [| exact (proj2 E3)]. cbn. destruct (_ || _) in SY; [eapply define_label_ok | eapply define_memory_ok]; try exact SY; auto; exact (proj1 E3). }
    clear SY.
    destruct a as [t p cs]. cbn [ast_children] in DA. destruct (nth0 _ _ DA) as (q & ->).
    destruct (Nat.eqb _ _) eqn:L1 in F.
    + apply Nat.eqb_eq in L1. unfold nchildren in L1. cbn in L1. destruct q; [| discriminate]. rinv. destruct (IH _ _ _ I2 H) as (R1 & R2 & R3).
      splits; auto; [| eapply calm_trans; [apply quiet_calm; exact E4 |]; eapply calm_trans; [apply quiet_calm, quiet_syms | exact R3]].
      eapply init_declarators_plain; eauto using isincomplete_false.
    + apply bind_ok in F as (ia & IA & F). apply child_ok in IA. cbn [ast_children] in IA. destruct (nth1 _ _ _ IA) as (q' & ->).
      apply bind_ok in F as ([x st3] & X & F). destruct x as [i |]; [| discriminate]. rinv.
      destruct (KI d ia (set_off 0 (set_syms syms st2)) _ _ I2 VD eq_refl X) as [N1 N2 N3]. destruct (IH (set_off (-1) st3) _ _ N2 H) as (R1 & R2 & R3).
      splits; auto.
      * eapply init_declarators_init; eauto using isincomplete_false.
      * eapply calm_trans; [apply quiet_calm; exact E4 |]. eapply calm_trans; [apply quiet_calm, quiet_syms |]. eapply calm_trans; [apply (calm_off 0) |].
        eapply calm_trans; [exact N3 |]. eapply calm_trans; [apply (calm_off (-1)) | exact R3].
Qed.
Lemma declaration_ok a st s st' : inv st -> resolve_decl k a st = Ok (Some s, st') -> decl_ok st a s st'.
Proof.
  intros I H. unfold resolve_decl in H. apply bind_ok in H as (sp & SP & H). apply child_ok in SP. apply rbind_some in H as (spec & st1 & SS & H).
  destruct (decl_specifiers_ok k KS _ _ _ _ I SS) as (td & base & specs & -> & D1 & D2 & D3 & D4 & D5 & _).
  destruct a as [t p cs]. cbn [ast_children] in SP. destruct (nth0 _ _ SP) as (q & ->). destruct sp as [t1 p1 c1].
  destruct (Nat.eqb _ _) eqn:L1 in H.
  - apply Nat.eqb_eq in L1. unfold nchildren in L1. cbn in L1. destruct q; [| discriminate]. rinv. split; eauto using quiet_calm; [econstructor; eauto | eexists; reflexivity].
  - apply bind_ok in H as (l & L & H). apply child_ok in L. cbn [ast_children] in L. destruct (nth1 _ _ _ L) as (q' & ->). rinv.
    destruct (init_declarators_ok _ _ D3 _ _ _ _ D4 M) as (R1 & R2 & R3). destruct l as [t2 p2 c2]. split; eauto.
    + eapply declaration_list; eauto.
    + eapply calm_trans; [apply quiet_calm; eassumption | assumption].
    + eexists; reflexivity.
Qed.
Lemma decl_labels s : (exists cs, s = Srt SRT_DECL_LIST None SPNone cs) -> cases_of s = [] /\ defaults_of s = 0%nat.
Proof. intros (cs & ->). auto. Qed.

(** ** Blocks *)
Lemma tags_no_labels ts : forallb tag_decl ts = true -> flat_map cases_of ts = [] /\ list_sum (List.map defaults_of ts) = 0%nat.
Proof.
  induction ts as [| [t d p cs] ts IH]; cbn [forallb]; intros H; [auto |]. apply andb_prop in H as [H1 H2]. destruct (IH H2) as (E1 & E2).
  unfold tag_decl in H1. destruct t; try discriminate. cbn [flat_map List.map cases_of defaults_of list_sum fold_right]. rewrite E1. split; [reflexivity |]. exact E2.
Qed.
Lemma block_tags C E ts : forallb tag_decl ts = true -> forall items cs E', block C E items cs E' -> block C E items (ts ++ cs) E'.
Proof. induction ts as [| t ts IH]; cbn; intros H items cs E' B; [assumption |]. apply andb_prop in H as [H1 H2]. apply block_tag; auto. Qed.
Lemma list_sum_app l m : list_sum (l ++ m) = (list_sum l + list_sum m)%nat.
Proof. induction l; cbn; [reflexivity |]. unfold list_sum in *. lia. Qed.
Lemma block_ok : forall items st us st' l, inv st -> r_scope st = Some l -> rmap (resolve_block_item k) items st = Ok (Some us, st') ->
  exists cs, r_scope st' = Some (l ++ cs) /\ block (ctx st) (env_of st) items cs (env_of st') /\ inv st' /\ (exists ts, r_tu st' = r_tu st ++ ts /\ forallb hidden ts = true)
    /\ labels (flat_map cases_of cs) (list_sum (List.map defaults_of cs)) st st'.
Proof.
  induction items as [| a items IH]; intros st us st' l I L H.
  - cbn in H. rinv. exists []. rewrite app_nil_r. splits; auto using labels_refl. + constructor. + exists []. now rewrite app_nil_r.
  - apply rmap_cons in H as (b & st1 & bs & F & H & _). unfold resolve_block_item in F. apply rbind_some in F as (s & st2 & S & F). unfold rok in F. injection F as _ <-.
    assert (X : scoped st st2 /\ labels (cases_of s) (defaults_of s) st st2 /\ inv st2 /\
      (ast_type a = AST_DECL /\ declaration_rule (env_of st) a s (env_of st2) \/ ast_type a <> AST_DECL /\ stmt (ctx st) (env_of st) a s (env_of st2))).
    { destruct (ast_is a AST_DECL) eqn:T.
      - apply ast_is_true in T. destruct (declaration_ok _ _ _ _ I S) as [D1 D2 D3 D4]. destruct (decl_labels _ D4) as (-> & ->). splits; auto using calm_scoped, labels_calm.
      - apply ast_is_false in T. destruct (KM _ _ _ _ I S) as [D1 D2 D3 D4 _]. splits; auto. }
    destruct X as ([(tu & TU & HU) SC] & LB & I2 & RU). rewrite L in SC. destruct (r_scope st2) as [l2 |] eqn:L2; [| contradiction]. destruct SC as (ts & -> & TS).
    assert (PS : push_scope s st2 = set_scope (Some ((l ++ ts) ++ [s])) st2) by (unfold push_scope; now rewrite L2). rewrite PS in H.
    destruct (IH _ _ _ ((l ++ ts) ++ [s]) (I2 : inv (set_scope _ st2)) eq_refl H) as (cs & R1 & R2 & R3 & (tu2 & R4 & R4') & R5).
    assert (LB' : labels (cases_of s) (defaults_of s) st (set_scope (Some ((l ++ ts) ++ [s])) st2)) by (eapply labels_same_r; [exact LB | now apply labels_none]).
    destruct (tags_no_labels _ TS) as (T1 & T2).
    exists (ts ++ s :: cs). splits; auto.
    + rewrite R1. now rewrite <- !app_assoc.
    + apply block_tags; [assumption |]. rewrite (ctx_labels _ _ _ _ LB') in R2. destruct RU as [(T & D) | (T & D)]; [eapply block_declaration | eapply block_statement]; eauto.
    + exists (tu ++ tu2). rewrite R4. cbn [r_tu set_scope]. rewrite TU, app_assoc, forallb_app, HU, R4'. auto.
    + rewrite flat_map_app, map_app, list_sum_app, T1, T2. cbn [app Nat.add flat_map List.map].
      change (list_sum (defaults_of s :: List.map defaults_of cs)) with (defaults_of s + list_sum (List.map defaults_of cs))%nat. eapply labels_trans; eassumption.
Qed.
(** the items of a block, without its scope *)
Lemma compound_body a st s st' : inv st -> resolve_compound_stmt k a st = Ok (Some s, st') ->
  exists cs, s = stmt_node SRT_CMPD_STMT cs /\ block (ctx st) (env_of st) (ast_children a) cs (env_of st') /\ inv st' /\ scoped st st' /\ labels (cases_of s) (defaults_of s) st st'.
Proof.
  intros I H. unfold resolve_compound_stmt in H. cbv zeta in H. apply bind_ok in H as ([o st1] & M & H). destruct o as [us |].
  2: { apply bind_ok in H as (? & _ & H). discriminate. }
  destruct (block_ok _ (set_scope (Some []) st) _ _ [] I eq_refl M) as (cs & R1 & R2 & R3 & (tu & R4 & R4') & R5). rewrite R1 in H. cbn [app deref bind] in H. rinv.
  exists cs. splits; auto.
  - split; [exists tu; split; assumption |]. cbn. destruct (r_scope st); [| exact Logic.I]. exists []. now rewrite app_nil_r.
  - apply (labels_same_r _ _ _ st1); [| now apply labels_none].
    apply (labels_trans [] 0 _ _ st (set_scope (Some []) st)); [now apply labels_none |]. exact R5.
Qed.
Lemma in_scope_ok f a st s st' (S : srt -> env -> env -> Prop) : inv st ->
  (forall st1 st2, inv st1 -> env_of st1 = entered (env_of st) -> f st1 = Ok (Some s, st2) -> ctx st1 = ctx st -> inv st2 /\ scoped st1 st2 /\ labels (cases_of s) (defaults_of s) st1 st2 /\
     S s (env_of st1) (env_of st2)) ->
  (forall E1, S s (entered (env_of st)) E1 -> left_scope E1 (env_of st') -> stmt (ctx st) (env_of st) a s (env_of st')) ->
  (forall e, s <> stmt_node SRT_EXPR_STMT [e]) ->
  in_scope f st = Ok (Some s, st') -> stmt_ok st a s st'.
Proof.
  intros I F G NE H. unfold in_scope in H. apply bind_ok in H as ([o st1] & M & H). apply bind_ok in H as (tags & T & H). apply bind_ok in H as (syms & Y & H). injection H as -> <-.
  destruct (F (set_tags (tag_enter (r_tags st)) (set_syms (sym_enter (r_syms st)) st)) st1 (enter_ok _ I) eq_refl M eq_refl) as (R1 & [R2 R2'] & [L1 L2 L3 L4 L5 L6] & R4).
  split.
  - eapply G; [exact R4 |]. split; [assumption | split; [assumption | reflexivity]].
  - destruct R1 as (J1 & J2 & J3). split; [eapply sym_exit_ok; [exact J1 | eassumption] | split; [eapply tag_exit_ok; [exact J2 | eassumption] | exact J3]].
  - split; assumption.
  - split; assumption.
  - intros e E. now destruct (NE e).
Qed.
Lemma set_loop_labels vs n lp st st' : labels vs n (set_loop true st) st' -> lp = r_loop st -> labels vs n st (set_loop lp st').
Proof. intros [A B C D E F] ->. split; auto. Qed.
Lemma set_loop_ctx st : ctx (set_loop true st) = mkcontext true (in_switch (ctx st)) (returns (ctx st)).
Proof. reflexivity. Qed.
Lemma scoped_set_loop lp st st' : scoped (set_loop true st) st' -> scoped st (set_loop lp st').
Proof. intros [A B]. split; assumption. Qed.

Lemma nodup_snoc (l : list Z) x : NoDup l -> ~ In x l -> NoDup (l ++ [x]).
Proof.
  intros N X. apply NoDup_rev in N. rewrite <- (rev_involutive (l ++ [x])). apply NoDup_rev. rewrite rev_app_distr. cbn. constructor; [| assumption].
  intros Y. apply X. now apply in_rev.
Qed.
Lemma isassignable_sym d e : dtype_isassignable d e = dtype_isassignable e d.
Proof.
  unfold dtype_isassignable. rewrite (andb_comm (dtype_isarithmetic d)). f_equal. destruct d, e; try reflexivity. unfold dtype_iscompatible. rewrite equals_sym.
  rewrite <- !orb_assoc. f_equal. apply orb_comm.
Qed.
(** what a condition is *)
Lemma condition_ok a i st c st1 d : inv st -> expr_at k a i st = Ok (Some c, st1) -> dty (decay c) = Ok d -> dtype_isscalar d = true ->
  exists x, nth_error (ast_children a) i = Some x /\ elab (env_of st) x c (env_of st1) /\ value_of c (decay c) /\ has (decay c) d /\ scalar d /\ inv st1 /\ quiet st st1.
Proof.
  intros I H D S. destruct (expr_at_ok k KE _ _ _ _ _ I H) as (x & X & [X1 (dx & X2 & X3 & _) X4 X5]). destruct (decay_clean _ _ X2 X3) as (e & P1 & P2). apply deref_ok in D. same_dty.
  exists x. splits; auto using decay_value, isscalar_scalar.
Qed.

Lemma for_step a st s st' : inv st -> ast_type a = AST_FOR_STMT -> in_scope (resolve_for_stmt k a) st = Ok (Some s, st') -> stmt_ok st a s st'.
Proof.
  intros I T H. pose proof H as H0. unfold in_scope in H0. apply bind_ok in H0 as ([o stx] & M & H0). apply bind_ok in H0 as (? & _ & H0). apply bind_ok in H0 as (? & _ & H0). injection H0 as -> _.
  destruct a as [t p cs]. cbn in T. subst t.
  assert (SH : exists i c u b q si sc su sb, cs = i :: c :: u :: b :: q /\ s = stmt_node SRT_FOR_STMT [si; sc; su; sb]).
  { unfold resolve_for_stmt in M. apply bind_ok in M as (ia & IA & M). apply rbind_some in M as (si & st1 & _ & M). apply bind_ok in M as (td & _ & M). destruct td; [discriminate |].
    apply bind_ok in M as (ca & CA & M). apply rbind_some in M as (sc & st2 & _ & M). apply bind_ok in M as (ok & _ & M). destruct ok; cbn [negb] in M; [| discriminate].
    apply bind_ok in M as (ua & UA & M). apply rbind_some in M as (su & st3 & _ & M). apply bind_ok in M as (ba & BA & M). apply bind_ok in M as ([o st4] & _ & M). destruct o as [sb |]; [| discriminate].
    apply child_ok in IA, CA, UA, BA. cbn [ast_children] in *. unfold rok in M. injection M as <- _.
    destruct cs as [| i [| c [| u [| b q]]]]; try discriminate. eexists _, _, _, _, _, _, _, _, _. split; reflexivity. }
  destruct SH as (i & c & u & b & q & si & sc & su & sb & -> & ->).
  eapply (in_scope_ok _ _ _ _ _ (fun _ E E4 => exists E1 E2 E3,
      (ast_type i = AST_DECL /\ declaration_rule E i si E1 \/ ast_type i <> AST_DECL /\ stmt (ctx st) E i si E1) /\ stmt (ctx st) E1 c sc E2
      /\ (forall e, sc = stmt_node SRT_EXPR_STMT [e] -> exists d, has e d /\ scalar d)
      /\ stmt (ctx st) E2 u su E3 /\ stmt (mkcontext true (in_switch (ctx st)) (returns (ctx st))) E3 b sb E4)); [exact I | | | | exact H].
  2: { intros E4 (E1 & E2 & E3 & [(R0 & R1) | (R0 & R1)] & R2 & R3 & R4 & R5) L; [eapply stmt_for_declaration | eapply stmt_for]; eauto. }
  2: { intros e E. discriminate. }
  clear - KE KS KD KI KM. intros st1 st2 I1 EV M CX. unfold resolve_for_stmt in M. cbn [child ast_children nth_error deref bind] in M.
  apply rbind_some in M as (si' & st3 & SI & M).
  assert (X : scoped st1 st3 /\ labels (cases_of si') (defaults_of si') st1 st3 /\ inv st3 /\
      (ast_type i = AST_DECL /\ declaration_rule (env_of st1) i si' (env_of st3) \/ ast_type i <> AST_DECL /\ stmt (ctx st1) (env_of st1) i si' (env_of st3))).
  { destruct (ast_is i AST_DECL) eqn:T.
    - apply ast_is_true in T. destruct (declaration_ok _ _ _ _ I1 SI) as [D1 D2 D3 D4]. destruct (decl_labels _ D4) as (-> & ->). splits; auto using calm_scoped, labels_calm.
    - apply ast_is_false in T. destruct (KM _ _ _ _ I1 SI) as [D1 D2 D3 D4 _]. splits; auto. }
  destruct X as (S3 & L3 & I3 & RU). clear SI.
  apply bind_ok in M as (td & _ & M). destruct td; [discriminate |]. apply rbind_some in M as (sc' & st4 & SC & M). apply bind_ok in M as (ok & OK & M).
  destruct ok; cbn [negb] in M; [| discriminate]. apply rbind_some in M as (su' & st5 & SU & M). cbv zeta in M. apply bind_ok in M as ([o st6] & SB & M). destruct o as [sb' |]; [| discriminate].
  unfold rok in M. injection M as <- <- <- <- <-.
  destruct (KM _ _ _ _ I3 SC) as [C1 C2 C3 C4 C5]. destruct (KM _ _ _ _ C2 SU) as [U1 U2 U3 U4 _]. destruct (KM _ (set_loop true st5) _ _ U2 SB) as [B1 B2 B3 B4 _].
  pose proof (ctx_labels _ _ _ _ L3) as X3. pose proof (ctx_labels _ _ _ _ C4) as X4. pose proof (ctx_labels _ _ _ _ U4) as X5. rewrite set_loop_ctx in B1.
  rewrite X5, X4, X3, CX in B1. rewrite X4, X3, CX in U1. rewrite X3, CX in C1. rewrite CX in RU. splits; auto.
  - eapply scoped_trans; [exact S3 |]. eapply scoped_trans; [exact C3 |]. eapply scoped_trans; [exact U3 |]. apply scoped_set_loop. exact B3.
  - cbn [cases_of defaults_of stmt_node flat_map List.map list_sum fold_right].
    repeat (eapply labels_trans; [eassumption |]). rewrite app_nil_r, Nat.add_0_r. now apply set_loop_labels.
  - eexists _, _, _. splits; eauto. intros e ->. destruct (C5 e eq_refl) as (d & D1 & D2). exists d. split; [assumption |]. cbn in OK. unfold dty in OK. rewrite D1 in OK. cbn in OK. injection OK as OK. now apply isscalar_scalar.
Qed.

Lemma stmt_step a st s st' : inv st -> resolve_stmt k a st = Ok (Some s, st') -> stmt_ok st a s st'.
Proof.
  intros I H. unfold resolve_stmt in H. destruct a as [t p cs]. cbn [ast_type] in H.
  destruct t; try discriminate.
  - (* block *)
    eapply (in_scope_ok _ _ _ _ _ (fun s E E1 => exists l, s = stmt_node SRT_CMPD_STMT l /\ block (ctx st) E cs l E1)); [exact I | | | | exact H].
    + intros st1 st2 I1 EV F CX. destruct (compound_body _ _ _ _ I1 F) as (l & -> & R1 & R2 & R3 & R4). splits; auto. exists l. split; [reflexivity |]. now rewrite <- CX.
    + intros E1 (l & -> & B) L. eapply stmt_block; eassumption.
    + intros e E. unfold in_scope in H. apply bind_ok in H as ([o st1] & M & H). apply bind_ok in H as (? & _ & H). apply bind_ok in H as (? & _ & H). injection H as -> _.
      destruct (compound_body _ _ _ _ (enter_ok _ I : inv (set_tags (tag_enter (r_tags st)) (set_syms (sym_enter (r_syms st)) st))) M) as (l & -> & _). discriminate.
  - (* case *)
    unfold resolve_case_stmt in H. destruct (r_cases st) as [l0 |] eqn:RC; [| discriminate]. apply rbind_some in H as (c & st1 & X & H).
    destruct (expr_at_ok k KE _ _ _ _ _ I X) as (x & HX & [X1 (dx & X2 & X3 & _) X4 X5]). cbn [ast_children] in HX. destruct (nth0 _ _ HX) as (q & ->).
    destruct (srt_is c SRT_ILITERAL_EXPR) eqn:T; cbn [negb] in H; [| discriminate]. apply bind_ok in H as (i & Hi & H). destruct (iliteral_isunsigned i) eqn:U; [discriminate |]. cbv zeta in H.
    apply bind_ok in H as (j & Hj & H).
    assert (SAME : perform_integer_promotion c = c).
    { revert Hj. unfold perform_integer_promotion. destruct (srt_dtype c) as [dc |]; [| reflexivity]. destruct dc; try reflexivity. discriminate. }
    rewrite SAME in *. rewrite Hi in Hj. injection Hj as <-. pose proof (q_cases _ _ X5) as Q. rewrite Q, RC in H. cbn [deref bind] in H.
    destruct (existsb _ _) eqn:EX in H; [discriminate |]. apply bind_ok in H as (b & B & H). apply child_ok in B. cbn [ast_children] in B. destruct (nth1 _ _ _ B) as (q' & ->).
    apply rbind_some in H as (s1 & st2 & S1 & H). unfold rok in H. injection H as <- <-.
    destruct (KM _ (set_cases (Some (l0 ++ [sval i])) st1) _ _ X4 S1) as [R1 R2 R3 [L1 L2 L3 L4 L5 L6] _].
    assert (C2 : cases_of (new_srt SRT_CASE_STMT [c; s1]) = sval i :: cases_of s1).
    { unfold srt_iliteral in Hi. destruct c as [tc dc pc cc]. cbn in Hi. destruct pc; try discriminate. injection Hi as ->. cbn. now rewrite app_nil_r. }
    assert (C3 : defaults_of (new_srt SRT_CASE_STMT [c; s1]) = defaults_of s1).
    { clear - T. destruct c as [tc dc pc cc]. unfold srt_is in T. cbn in T. destruct tc; try discriminate. cbn. lia. }
    destruct X5 as [Q1 Q2 Q3 Q4 Q5 Q6].
    split.
    + eapply stmt_case; [unfold ctx; cbn; now rewrite RC | exact X1 | apply literal_ok; eassumption |].
      replace (ctx st) with (ctx (set_cases (Some (l0 ++ [sval i])) st1)); [exact R1 |]. unfold ctx. cbn. now rewrite RC, Q1, Q4.
    + exact R2.
    + eapply scoped_trans; [exact Q6 |]. destruct R3 as [R3 R3']. split; assumption.
    + rewrite C2, C3. cbn in L1, L2, L3, L4, L5, L6. split; try congruence.
      * rewrite L3, RC. cbn. now rewrite <- app_assoc.
      * intros l EL ND. rewrite RC in EL. injection EL as <-. specialize (L4 _ eq_refl). rewrite <- app_assoc in L4. apply L4.
        apply nodup_snoc; [assumption |]. intros IN. assert (existsb (Z.eqb (sval i)) l0 = true) by (apply existsb_exists; exists (sval i); split; [assumption | apply Z.eqb_refl]). congruence.
      * now rewrite <- Q3.
    + intros e E. discriminate.
  - (* default *)
    unfold resolve_default_stmt in H. destruct (r_cases st) as [l0 |] eqn:RC; [| discriminate]. destruct (r_default st) eqn:RD; [discriminate |].
    apply bind_ok in H as (b & B & H). apply child_ok in B. cbn [ast_children] in B. destruct (nth0 _ _ B) as (q & ->). apply rbind_some in H as (s1 & st2 & S1 & H). unfold rok in H. injection H as <- <-.
    destruct (KM _ (set_default true st) _ _ I S1) as [R1 R2 R3 [L1 L2 L3 L4 L5 L6] _]. cbn in L1, L2, L3, L4, L5, L6.
    split.
    + eapply stmt_default; [unfold ctx; cbn; now rewrite RC | exact R1].
    + exact R2.
    + destruct R3 as [R3 R3']. split; assumption.
    + cbn [cases_of defaults_of new_srt flat_map List.map list_sum fold_right]. rewrite app_nil_r, Nat.add_0_r. split; auto; rewrite ?RD; cbn; lia.
    + intros e E. discriminate.
  - (* continue *)
    unfold resolve_continue_stmt in H. destruct (r_loop st) eqn:RL; [| discriminate]. unfold rok in H. injection H as <- <-.
    split; auto using labels_refl, scoped_refl; [now apply stmt_continue | discriminate].
  - (* break *)
    unfold resolve_break_stmt in H. destruct (_ && _) eqn:B in H; [discriminate |]. unfold rok in H. injection H as <- <-.
    split; auto using labels_refl, scoped_refl; [| discriminate]. apply stmt_break. unfold ctx. cbn. destruct (r_loop st); [now left |]. right. destruct (r_cases st); [reflexivity | discriminate].
  - (* return *)
    unfold resolve_return_stmt in H. cbv zeta in H. apply bind_ok in H as (ret & RT & H). apply deref_ok in RT.
    destruct (_ && _) eqn:B1 in H; [discriminate |]. destruct (_ && _) eqn:B2 in H; [discriminate |]. destruct (Nat.eqb _ _) eqn:N in H.
    + unfold rok in H. injection H as <- <-. apply Nat.eqb_eq in N. unfold nchildren in N. cbn in N. destruct cs; [| discriminate]. cbn in B2. rewrite andb_true_r in B2.
      destruct ret; try discriminate. split; auto using labels_refl, scoped_refl; [now apply stmt_return | discriminate].
    + apply rbind_some in H as (s0 & st1 & X & H). destruct (expr_at_ok k KE _ _ _ _ _ I X) as (x & HX & [X1 (dx & X2 & X3 & _) X4 X5]).
      apply bind_ok in H as (d & D & H). apply deref_ok in D. destruct (dtype_isassignable _ _) eqn:AS in H; [| discriminate]. cbn [negb] in H. unfold rok in H. injection H as <- <-.
      cbn [ast_children] in HX. destruct (nth0 _ _ HX) as (q & ->). cbn in B1. rewrite andb_true_r in B1.
      assert (LB : forall v, cases_of (new_srt SRT_RET_STMT [v]) = [] /\ defaults_of (new_srt SRT_RET_STMT [v]) = 0%nat) by (intros v; split; reflexivity).
      split; auto using quiet_scoped.
      * eapply stmt_return_value; [exact RT | intros ->; discriminate | exact X1 | apply decay_value | exact D | apply isassignable_spec; now rewrite isassignable_sym | now apply cast_assigned].
      * destruct (LB (if dtype_equals d ret then decay s0 else cast ret (decay s0))) as (-> & ->). now apply labels_quiet.
      * discriminate.
  - (* expression *)
    unfold resolve_expression_stmt in H. apply rbind_some in H as (s0 & st1 & X & H). destruct (expr_at_ok k KE _ _ _ _ _ I X) as (x & HX & [X1 (dx & X2 & X3 & _) X4 X5]).
    unfold rok in H. injection H as <- <-. cbn [ast_children] in HX. destruct (nth0 _ _ HX) as (q & ->). split; auto using quiet_scoped.
    + eapply stmt_expression; [exact X1 | apply decay_value].
    + now apply labels_quiet.
    + intros e E. injection E as <-. exact (decay_clean _ _ X2 X3).
  - (* null *)
    unfold rok in H. injection H as <- <-. split; auto using labels_refl, scoped_refl; [apply stmt_null | discriminate].
  - (* if *)
    unfold resolve_if_else_stmt in H. apply rbind_some in H as (c & st1 & X & H). cbv zeta in H. apply bind_ok in H as (d & D & H). destruct (dtype_isscalar d) eqn:SD; [| discriminate]. cbn [negb] in H.
    destruct (condition_ok _ _ _ _ _ _ I X D SD) as (x & HX & C1 & C2 & C3 & C4 & C5 & C6). cbn [ast_children] in HX. destruct (nth0 _ _ HX) as (q & ->).
    apply bind_ok in H as (b & B & H). apply child_ok in B. cbn [ast_children] in B. destruct (nth1 _ _ _ B) as (q' & ->). apply rbind_some in H as (s1 & st2 & S1 & H).
    destruct (KM _ _ _ _ C5 S1) as [R1 R2 R3 R4 _]. pose proof (ctx_labels _ _ _ _ (labels_quiet _ _ C6)) as X1. rewrite X1 in R1.
    assert (SC : scoped st st2) by (eapply scoped_trans; [apply quiet_scoped; exact C6 | exact R3]).
    destruct (Nat.eqb _ _) eqn:N in H.
    + apply Nat.eqb_eq in N. unfold nchildren in N. cbn in N. destruct q'; [| discriminate]. unfold rok in H. injection H as <- <-. split; auto; [| | discriminate].
      * eapply stmt_if; eassumption.
      * cbn [cases_of defaults_of new_srt flat_map List.map list_sum fold_right]. rewrite app_nil_r, Nat.add_0_r. eapply labels_quiet_l; eassumption.
    + apply bind_ok in H as (b' & B' & H). apply child_ok in B'. cbn [ast_children] in B'. destruct (nth2 _ _ _ _ B') as (q2 & ->). apply rbind_some in H as (s2 & st3 & S2 & H).
      destruct (KM _ _ _ _ R2 S2) as [U1 U2 U3 U4 _]. rewrite (ctx_labels _ _ _ _ R4), X1 in U1. unfold rok in H. injection H as <- <-. split; auto; [| | | discriminate].
      * eapply stmt_if_else; eassumption.
      * eapply scoped_trans; eassumption.
      * cbn [cases_of defaults_of new_srt flat_map List.map list_sum fold_right]. rewrite app_nil_r, Nat.add_0_r. eapply labels_quiet_l; [eassumption |]. eapply labels_trans; eassumption.
  - (* switch *)
    unfold resolve_switch_stmt in H. apply rbind_some in H as (c & st1 & X & H). cbv zeta in H. apply bind_ok in H as (d & D & H). apply deref_ok in D.
    destruct (dtype_isinteger d) eqn:SD; [| discriminate]. cbn [negb] in H. destruct (expr_at_ok k KE _ _ _ _ _ I X) as (x & HX & [X1 (dx & X2 & X3 & _) X4 X5]).
    cbn [ast_children] in HX. destruct (nth0 _ _ HX) as (q & ->). destruct (decay_clean _ _ X2 X3) as (e & P1 & P2).
    assert (PR : promoted (decay c) (perform_integer_promotion (decay c)) d).
    { destruct (dtype_isarithmetic e) eqn:A.
      - destruct (promoted_spec _ _ P1 P2 A) as (d' & Q1 & Q2 & Q3). congruence.
      - exfalso. unfold perform_integer_promotion in D. rewrite P1 in D. assert (E : e = d) by (destruct e; try congruence; discriminate). subst e. apply integer_arith in SD. congruence. }
    apply bind_ok in H as (b & B & H). apply child_ok in B. cbn [ast_children] in B. destruct (nth1 _ _ _ B) as (q' & ->). apply bind_ok in H as ([o st2] & S1 & H). destruct o as [s1 |]; [| discriminate].
    unfold rok in H. injection H as <- <-.
    destruct (KM _ (set_default false (set_cases (Some []) st1)) _ _ X4 S1) as [R1 R2 R3 [L1 L2 L3 L4 L5 L6] _]. cbn in L1, L2, L3, L4, L5, L6. destruct X5 as [Q1 Q2 Q3 Q4 Q5 Q6]. split; auto; [| | | discriminate].
    + eapply stmt_switch; [exact X1 | apply decay_value | exact PR | | apply (L4 [] eq_refl); constructor | exact L6].
      unfold ctx in R1 |- *. cbn in R1 |- *. rewrite Q1, Q4 in R1. exact R1.
    + eapply scoped_trans; [exact Q6 |]. destruct R3 as [R3 R3']. split; assumption.
    + apply labels_none; cbn; congruence.
  - (* while *)
    unfold resolve_while_stmt in H. apply rbind_some in H as (c & st1 & X & H). cbv zeta in H. apply bind_ok in H as (d & D & H). destruct (dtype_isscalar d) eqn:SD; [| discriminate]. cbn [negb] in H.
    destruct (condition_ok _ _ _ _ _ _ I X D SD) as (x & HX & C1 & C2 & C3 & C4 & C5 & C6). cbn [ast_children] in HX. destruct (nth0 _ _ HX) as (q & ->).
    apply bind_ok in H as (b & B & H). apply child_ok in B. cbn [ast_children] in B. destruct (nth1 _ _ _ B) as (q' & ->). apply bind_ok in H as ([o st2] & S1 & H). destruct o as [s1 |]; [| discriminate].
    unfold rok in H. injection H as <- <-.
    destruct (KM _ (set_loop true st1) _ _ C5 S1) as [R1 R2 R3 R4 _]. pose proof (ctx_labels _ _ _ _ (labels_quiet _ _ C6)) as X1. rewrite set_loop_ctx, X1 in R1. split; auto; [| | | discriminate].
    + eapply stmt_while; eassumption.
    + eapply scoped_trans; [apply quiet_scoped; exact C6 |]. apply scoped_set_loop. exact R3.
    + cbn [cases_of defaults_of new_srt flat_map List.map list_sum fold_right]. rewrite app_nil_r, Nat.add_0_r. eapply labels_quiet_l; [eassumption |]. now apply set_loop_labels.
  - (* for *) apply for_step; auto.
Qed.

(** ** Function definitions *)
Lemma define_params_ok : forall ps t t', syms_ok t -> forallb (fun p => clean (snd p)) ps = true -> define_params ps t = Ok t' -> declare_parameters ps t t' /\ syms_ok t'.
Proof.
  induction ps as [| [n d] ps IH]; cbn [define_params declare_parameters forallb]; intros t t' S C H.
  - injection H as ->. auto.
  - apply bind_ok in H as (m & N & H). apply deref_ok in N. subst n. apply bind_ok in H as (t1 & T & H). apply andb_prop in C as [C1 C2].
    assert (S1 : syms_ok t1) by (eapply define_memory_ok; [exact S | | exact T]; now apply clean_vclean). destruct (IH _ _ S1 C2 H) as (D & S2). eauto.
Qed.
Record top (st : rst) : Prop := { top_scope : r_scope st = None; top_loop : r_loop st = false; top_cases : r_cases st = None }.
Lemma function_ok a st s st' : inv st -> top st -> resolve_function_definition k a st = Ok (Some s, st') ->
  function_definition (env_of st) a s (env_of st') /\ inv st' /\ scoped st st' /\ top st'.
Proof.
  intros I [T1 T2 T3] H. unfold resolve_function_definition in H. apply bind_ok in H as (sp & SP & H). apply child_ok in SP. apply rbind_some in H as (spec & st1 & SS & H).
  destruct (decl_specifiers_ok k KS _ _ _ _ I SS) as (td & base & specs & -> & D1 & D2 & D3 & D4 & D5 & D6).
  destruct (is_typedef (spec_of td base)) eqn:TD; [discriminate |]. destruct td; [discriminate |]. destruct (D6 eq_refl) as (-> & D7). clear D6 D1 TD.
  apply bind_ok in H as (da & DA & H). apply child_ok in DA. apply rbind_some in H as ([on ls] & st2 & DD & H). cbv zeta in H.
  destruct (whole_declarator k KD _ _ _ _ _ _ _ D4 D3 DD) as (E1 & E2 & E3 & E4). cbn [spec_of] in H. destruct (dtype_connect ls base) as [| | | | | | | | | | | | | | ps ret |] eqn:DC; try discriminate.
  apply bind_ok in H as (n & N & H). apply deref_ok in N. subst on. apply bind_ok in H as (u & U & H). destruct u; [| discriminate]. cbn [negb] in H. destruct (existsb _ _) in H; [discriminate |].
  apply bind_ok in H as (y1 & Y1 & H). apply bind_ok in H as (y2 & Y2 & H). apply bind_ok in H as (y3 & Y3 & H). apply bind_ok in H as (ba & BA & H). apply child_ok in BA.
  apply bind_ok in H as ([o st3] & B & H). apply bind_ok in H as (tg & TG & H). apply bind_ok in H as (y4 & Y4 & H). apply bind_ok in H as (y5 & Y5 & H). destruct o as [body |]; [| discriminate].
  unfold rok in H. injection H as <- <-.
  destruct a as [t p cs]. cbn [ast_children] in *. destruct (nth0 _ _ SP) as (q & ->). destruct (nth1 _ _ _ DA) as (q1 & ->). destruct (nth2 _ _ _ _ BA) as (q2 & ->).
  destruct E3 as (J1 & J2 & J3). assert (CL : forallb (fun p => clean (snd p)) ps = true /\ clean ret = true) by (clear - E2; cbn in E2; now apply andb_prop in E2).
  assert (K1 : syms_ok y1) by (eapply define_label_ok; [exact J1 | | exact Y1]; exact (clean_vclean _ E2)).
  assert (K2 : syms_ok y2) by (eapply set_nbytes_ok; [| exact Y2]; exact (enter_syms_ok _ K1)).
  destruct (define_params_ok _ _ _ K2 (proj1 CL) Y3) as (DP & K3).
  set (st2' := set_ret (Some ret) (set_tags (tag_enter (r_tags st2)) (set_syms y3 st2))) in *.
  assert (I2 : inv st2') by (split; [exact K3 | split; [exact (enter_tags_ok _ J2) | exact J3]]).
  destruct (compound_body _ _ _ _ I2 B) as (l & -> & R1 & R2 & R3 & R4).
  pose proof (quiet_trans _ _ _ D5 E4) as [Q1 Q2 Q3 Q4 Q5 Q6].
  splits.
  - destruct sp as [ts qs specs], ba as [tb qb items]. unfold ctx in R1. cbn in R1. rewrite Q1, Q2, T2, T3 in R1.
    eapply function_rule; [exact D7 | exact D2 | exact E1 | exact U | exact Y1 | exact Y2 | exact DP | exact R1 | exact Y4 | split; [exact Y5 | split; [exact TG | reflexivity]]].
  - destruct R2 as (S1 & S2 & S3). split; [eapply sym_exit_ok; [| exact Y5]; eapply set_nbytes_ok; eassumption | split; [eapply tag_exit_ok; eassumption | exact S3]].
  - eapply scoped_trans; [exact Q6 |]. destruct R3 as [R3 R3']. split; assumption.
  - destruct R4 as [L1 L2 L3 L4 L5 L6]. cbn in L1, L2, L3. split; cbn; try congruence.
    + destruct Q6 as [_ Q6]. rewrite T1 in Q6. destruct R3 as [_ R3]. cbn in R3. destruct (r_scope st2); [contradiction |]. destruct (r_scope st3); [contradiction | reflexivity].
    + rewrite L3, Q2, T3. reflexivity.
Qed.
Lemma hidden_spec s : hidden s = true -> tag_decl s = true \/ string_decl s = true.
Proof.
  unfold hidden. intros H. apply orb_prop in H. exact H.
Qed.
Lemma unit_hiddens E ts : forallb hidden ts = true -> forall items cs E', unit_items E items cs E' -> unit_items E items (ts ++ cs) E'.
Proof. induction ts as [| t ts IH]; cbn; intros H items cs E' B; [assumption |]. apply andb_prop in H as [H1 H2]. apply unit_hidden; auto using hidden_spec. Qed.
Lemma calm_top st st' : calm st st' -> top st -> top st'.
Proof. intros [A B C D _ [_ F]] [T1 T2 T3]. cbn in *. split; try congruence. rewrite T1 in F. destruct (r_scope st'); [contradiction | reflexivity]. Qed.
Lemma function_not_string E a s E' : function_definition E a s E' -> string_of s = None.
Proof. now intros []. Qed.
Lemma declaration_not_string E a s E' : declaration_rule E a s E' -> string_of s = None.
Proof.
  intros D. inversion D; subst; [reflexivity |]. match goal with X : init_declarators _ _ _ _ _ _ |- _ => inversion X; subst; reflexivity end.
Qed.
Lemma unit_ok : forall items st us st', inv st -> top st -> rmap (resolve_external k) items st = Ok (Some us, st') ->
  exists cs, r_tu st' = r_tu st ++ cs /\ unit_items (env_of st) items cs (env_of st') /\ inv st'.
Proof.
  induction items as [| a items IH]; intros st us st' I T H.
  - cbn in H. rinv. exists []. rewrite app_nil_r. splits; [reflexivity | constructor | assumption].
  - apply rmap_cons in H as (b & st1 & bs & F & H & _). unfold resolve_external in F. apply rbind_some in F as (s & st2 & S & F). unfold rok in F. injection F as _ <-.
    assert (X : scoped st st2 /\ inv st2 /\ top st2 /\
      (ast_type a = AST_FUNC_DEF /\ function_definition (env_of st) a s (env_of st2) \/ ast_type a <> AST_FUNC_DEF /\ declaration_rule (env_of st) a s (env_of st2))).
    { destruct (ast_is a AST_FUNC_DEF) eqn:TA.
      - apply ast_is_true in TA. destruct (function_ok _ _ _ _ I T S) as (D1 & D2 & D3 & D4). splits; auto.
      - apply ast_is_false in TA. destruct (declaration_ok _ _ _ _ I S) as [D1 D2 D3 D4]. splits; eauto using calm_scoped, calm_top. }
    destruct X as ([(tu & TU & HU) _] & I2 & T2 & RU).
    assert (PS : push_scope s st2 = set_tu (r_tu st2 ++ [s]) st2) by (unfold push_scope; now rewrite (top_scope _ T2)). rewrite PS in H.
    assert (NS : string_of s = None) by (destruct RU as [(_ & D) | (_ & D)]; [eapply function_not_string | eapply declaration_not_string]; eassumption).
    pose proof (env_push _ st2 NS) as EP. rewrite PS in EP.
    assert (I3 : inv (set_tu (r_tu st2 ++ [s]) st2)) by (destruct I2 as (J1 & J2 & J3); split; [exact J1 | split; [exact J2 |]]; rewrite <- PS; now apply strings_push).
    destruct (IH (set_tu (r_tu st2 ++ [s]) st2) _ _ I3 ltac:(destruct T2; split; assumption) H) as (cs & R1 & R2 & R3). rewrite EP in R2.
    exists (tu ++ s :: cs). splits; [| | assumption].
    + rewrite R1. cbn. rewrite TU, <- !app_assoc. reflexivity.
    + apply unit_hiddens; [assumption |]. destruct RU as [(TA & D) | (TA & D)]; [eapply unit_function | eapply unit_declaration]; eauto.
Qed.
End Stmt.

(** * The knot *)
Record knot_ok (k : knot) : Prop := {
  KE : forall a st s st', inv st -> k_expr k a st = Ok (Some s, st') -> expr_ok st a s st';
  KT : forall a st d st', inv st -> k_tyname k a st = Ok (Some d, st') -> type_ok st a d st';
  KS : forall a st d st', inv st -> k_specs k a st = Ok (Some d, st') -> specs_ok st (ast_children a) d st';
  KD : forall td base socket a st n ls st', inv st -> clean base = true ->
    k_declor k (spec_of td base) socket a st = Ok (Some (n, ls), st') -> declor_ok st td base socket a n ls st';
  KZ : forall tags d s, tags_ok tags -> k_zero k tags d = Ok s -> zeroed tags d s;
  KI : forall d a st s st', inv st -> vclean d = true -> r_off st = 0 -> k_init k d false a st = Ok (Some s, st') -> init_ok st d a s st';
  KN : forall d a st s st', inv st -> vclean d = true -> aggregate d -> ast_type a = AST_INIT_LIST -> 0 <= r_off st < Z.of_nat (nchildren a) ->
    k_init k d true a st = Ok (Some s, st') -> nested_ok st d (ast_children a) s st';
  KM : forall a st s st', inv st -> k_stmt k a st = Ok (Some s, st') -> stmt_ok st a s st'
}.
Lemma knots f : knot_ok (resolvers f).
Proof.
  induction f as [| f [E T S D Z N1 N2 M]]; [split; intros; discriminate |]. split; cbn [resolvers k_expr k_tyname k_specs k_declor k_zero k_init k_stmt]; intros.
  - eapply expr_step; eassumption.
  - eapply type_name_step; eassumption.
  - eapply specs_step; eassumption.
  - eapply declor_step; eassumption.
  - eapply zero_step; eassumption.
  - eapply init_step; eassumption.
  - eapply nested_step; eassumption.
  - eapply stmt_step; eassumption.
Qed.
(** every accepted program has the elaboration that the language rules prescribe *)
Theorem resolve_sound a s : resolve a = Ok s -> program a s.
Proof.
  intros H. unfold resolve in H. apply bind_ok in H as ([o st] & R & H). destruct o as [s' |]; [| discriminate]. injection H as ->.
  unfold resolve_translation_unit in R. apply rbind_some in R as (us & st1 & M & R). unfold rok in R. injection R as <- <-.
  destruct (knots (resolve_fuel a)) as [E T S D Z N1 N2 K]. destruct (unit_ok _ S D N1 K (ast_children a) new_resolver us st1) as (cs & R1 & R2 & R3); auto.
  - split; [intros sc n y [<- | []] [] | split; [intros sc n y [<- | []] [] | split; reflexivity]].
  - split; reflexivity.
  - exists cs, (env_of st1). cbn in R1. rewrite R1. splits; [reflexivity | exact R2 |]. destruct R3 as (_ & _ & R3 & _). rewrite <- R1. exact R3.
Qed.
