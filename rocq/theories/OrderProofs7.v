(** Proofs for C35 and C36: statements and declarations *)
From Verif Require Import Base AstModel DtypeModel SymtabModel SrtModel ImmcModel ImmcSem ImmcgenModel TypeSpec ElabSpec ElabProofs ResolverSpec ResolverProofs LabelSpec LabelProofs LabelProofs2 RegSpec GenSpec OrderSpec OrderProofs OrderProofs2 OrderProofs3 OrderProofs4 OrderProofs6 OrderProofs5.
Local Open Scope Z_scope.
#[local] Arguments create_label_name : simpl never.
#[local] Arguments create_sliteral_label : simpl never.

(** like [sq], with the items and the targets of the jumps in view *)
Definition sqk (X : name -> Prop) (ks : list item) (st : gst) (cs : list immc) (st' : gst) : Prop :=
  codes ks = cs /\ Forall wf_item ks /\ ok_items X ks (g_next st) (g_next st') /\ cases_in st st' ks /\ default_in st st' ks /\ steady st st' /\ length (g_syms st') = length (g_syms st).
Lemma sqk_sq X ks b c st cs st' : sqk X ks st cs st' -> (forall n, X n -> In n (all_marks ks) \/ exits b c st n) -> sq b c st cs st'.
Proof. intros (E & W & O & C & D & S & N) I. exists ks. splits; auto. eapply ok_items_mono; eassumption. Qed.
Lemma sq_sqk b c st cs st' : sq b c st cs st' -> exists ks, sqk (fun n => In n (all_marks ks) \/ exits b c st n) ks st cs st'.
Proof. intros (ks & H). exists ks. exact H. Qed.
Lemma sqk_weaken (X Y : name -> Prop) ks st cs st' : (forall n, X n -> Y n) -> sqk X ks st cs st' -> sqk Y ks st cs st'.
Proof. intros I (E & W & O & R). split; [exact E |]. split; [exact W |]. split; [eapply ok_items_mono; eassumption | exact R]. Qed.
Lemma sqk_app X a d st st1 st2 c1 c2 : sqk X a st c1 st1 -> sqk X d st1 c2 st2 -> sqk X (a ++ d) st (c1 ++ c2) st2.
Proof.
  intros (<- & Wa & Oa & Ca & Da & Sa & La) (<- & Wd & Od & Cd & Dd & Sd & Ld). split; [apply codes_app |]. split; [now apply Forall_app |].
  split; [eapply ok_items_app; eassumption |]. split; [eapply cases_trans; eauto using marks_l, marks_r | split; [eapply default_trans; eauto using marks_l, marks_r | split; [eapply steady_trans; eassumption | congruence]]].
Qed.
Lemma sqk_item (X : name -> Prop) k st st' : wf_item k -> ok_item X k (g_next st) (g_next st') -> keep st st' -> sqk X [k] st (item_code k) st'.
Proof.
  intros W O ((C & D) & S & L0). split; [cbn; apply app_nil_r |]. split; [auto |]. split; [econstructor; [exact O | constructor] |]. split; [now apply cases_same | split; [now left | split; assumption]].
Qed.
Lemma sqk_move X ks st cs st' a a' : sqk X ks st cs st' -> g_next a = g_next st -> g_next a' = g_next st' -> g_cases a = g_cases st -> g_cases a' = g_cases st' -> g_default a = g_default st -> g_default a' = g_default st' ->
  length (g_syms a) = length (g_syms st) -> length (g_syms a') = length (g_syms st') -> steady a a' -> sqk X ks a cs a'.
Proof.
  intros (E & W & O & C & D & _ & N) E1 E2 E3 E4 E5 E6 E7 E8 S. unfold sqk, cases_in, default_in in *. rewrite E1, E2, E3, E4, E5, E6. splits; auto. congruence.
Qed.
Lemma sqk_eq X ks st cs cs' st' : sqk X ks st cs st' -> cs = cs' -> sqk X ks st cs' st'.
Proof. now intros H <-. Qed.
Lemma sqk_nil X st : sqk X [] st [] st.
Proof. split; [reflexivity |]. split; [constructor |]. split; [constructor |]. split; [now apply cases_same |]. split; [now left |]. repeat split. Qed.
Lemma sqk_lab X t v n st : sqk X [([], [IMMC_LABEL t v n])] st [IMMC_LABEL t v n] st.
Proof. apply (sqk_item X ([], [IMMC_LABEL t v n])); [apply wf_lab | apply ok_lab | apply keep_refl]. Qed.
Lemma sqk_jmp (X : name -> Prop) l st : X (Lb l) -> sqk X [([], [jmp_to l])] st [jmp_to l] st.
Proof. intros H. apply (sqk_item X ([], [jmp_to l])); [apply (wf_end [] []) | apply ok_jmp, H | apply keep_refl]. Qed.
Lemma sqk_cond (X : name -> Prop) c0 j st st' A n : code (g_next st) c0 (g_next st') A A -> jump_im n j -> incl (reads j) A -> incl A (reads j) -> X n -> keep st st' -> sqk X [(c0, [j])] st (c0 ++ [j]) st'.
Proof. intros C J I I' H K. apply (sqk_item X (c0, [j])); [eapply wf_jump, J | eapply ok_cond; eassumption | exact K]. Qed.
Lemma sqk_steady X ks st cs st' : sqk X ks st cs st' -> steady st st'.
Proof. intros H. apply H. Qed.
Lemma sqk_depth X ks st cs st' : sqk X ks st cs st' -> length (g_syms st') = length (g_syms st).
Proof. intros H. apply H. Qed.
Lemma sqk_start X ks st st1 cs st' : g_next st1 = g_next st -> keep st st1 -> sqk X ks st1 cs st' -> sqk X ks st cs st'.
Proof.
  intros N ((C & D) & S & L0) H. eapply sqk_move; [exact H | auto .. |]. eapply steady_trans; [exact S | apply H].
Qed.
Lemma keep_deep c st st' : keep st st' -> deep c st -> deep c st'.
Proof. intros (_ & _ & E). unfold deep. now rewrite E. Qed.
Lemma expr_item X e st cs st' : expr_ok e st cs st' -> ok_item X (cs, []) (g_next st) (g_next st').
Proof.
  intros [(r & _ & C & _) | (_ & C & _)]; eexists _, _; (split; [exact C |]); (split; [constructor |]); [right; left; eexists; reflexivity | now left].
Qed.
Lemma all_marks_app a b : all_marks (a ++ b) = all_marks a ++ all_marks b.
Proof. apply flat_map_app. Qed.
Ltac in_marks := rewrite ?all_marks_app; cbn [flat_map marks app normal_label new_label_immc_from_id new_label_immc]; rewrite ?in_app_iff; cbn [In]; rewrite ?in_app_iff; cbn [In]; clear; intuition.

Definition ready (b : bool) (c : bool * bool) (sw : bool) (s : srt) : Prop := inside b c sw s /\ everywhere fine s /\ shaped s = true.
Lemma shaped_list b c sw l : Forall (inside b c sw) l -> Forall (everywhere fine) l -> forallb shaped l = true -> Forall (ready b c sw) l.
Proof. rewrite !Forall_forall, forallb_forall. intros A B C x I. unfold ready. auto. Qed.
Definition opaque (t : srttype) : bool := match t with SRT_IF_STMT | SRT_WHILE_STMT | SRT_SWITCH_STMT | SRT_RET_STMT | SRT_EXPR_STMT | SRT_CASE_STMT => true | _ => is_expr t end.
Lemma shaped_children s : shaped s = true -> opaque (srt_type s) = false -> forallb shaped (srt_children s) = true.
Proof. destruct s as [t d p cs]. cbn [srt_type srt_children shaped]. intros H O. destruct t; try discriminate O; try exact H. now apply andb_prop in H. Qed.
Lemma fine_children s : everywhere fine s -> Forall (everywhere fine) (srt_children s).
Proof. intros H. rewrite Forall_forall. intros x I. eapply everywhere_child; eassumption. Qed.
Lemma ready_children b c sw s : ready b c sw s -> transparent (srt_type s) = true -> opaque (srt_type s) = false -> Forall (ready b c sw) (srt_children s).
Proof.
  intros (I & F & S) T O. apply shaped_list; [| apply fine_children, F | now apply shaped_children]. rewrite Forall_forall. intros x J. eapply inside_child; eassumption.
Qed.
Lemma good_of e s : everywhere fine s -> In e (srt_children s) -> exprs e = true -> good e.
Proof. intros F I X. split; [eapply everywhere_child; eassumption | exact X]. Qed.

Ltac close KS CS := match goal with |- sq ?b ?c ?st ?cs ?st' => apply (sqk_sq (fun m => In m (all_marks KS) \/ exits b c st m) KS); [apply (sqk_eq _ _ _ CS); [| rewrite <- ?app_assoc; reflexivity] | intros ? h; exact h] end.
Section Stmt.
Variable f : nat.
Hypothesis IH : forall b c sw od s st cs st', snd c = true -> deep c st -> ready b c sw s -> gen f od s st = Ok (cs, st') -> sq b c st cs st'.

Lemma sq_list b c sw : snd c = true -> forall l st cs st', Forall (ready b c sw) l -> deep c st -> append_list (gen f) l st = Ok (cs, st') -> sq b c st cs st'.
Proof.
  intros S. induction l as [| x l IHl]; intros st cs st' F D H; cbn in H; [injection H as <- <-; apply sq_none; [reflexivity | apply keep_refl] |].
  ginv H. inversion F; subst. injection H as <- <-. assert (A := IH _ _ _ _ _ _ _ _ S D H2 M). eapply sq_app; [exact A |]. eapply IHl; [assumption | | exact M0]. eapply sq_deep; eassumption.
Qed.
Lemma sq_child b c sw s i st cs st' : snd c = true -> deep c st -> (forall x, gchild s i = Ok x -> ready b c sw x) -> append_child (gen f) s i st = Ok (cs, st') -> sq b c st cs st'.
Proof. unfold append_child. intros S D R H. ginv H. eapply IH; [exact S | exact D | apply R, M | exact H]. Qed.
Lemma sq_expression b c s st cs st' : everywhere fine s -> forallb exprs (srt_children s) = true -> gen_expression_stmt (gen f) s st = Ok (cs, st') -> sq b c st cs st'.
Proof.
  unfold gen_expression_stmt, append_child. intros F X H. ginv H. pose proof (child_in _ _ _ M) as I. rewrite forallb_forall in X. assert (G := good_of _ _ F I (X _ I)).
  pose proof (gen_expr_ok _ _ _ _ _ G H) as E. pose proof (gen_expr_keep _ _ _ _ _ (X _ I) H) as K.
  rewrite <- (app_nil_r cs). apply (sq_item b c st st' (cs, [])); [apply wf_code | apply (expr_item _ _ _ _ _ E) |]. eapply keep_trans; [| exact K]. repeat split.
Qed.
Lemma sq_return b c s st cs st' : snd c = true -> everywhere fine s -> forallb exprs (srt_children s) = true -> gen_return_stmt (gen f) s st = Ok (cs, st') -> sq b c st cs st'.
Proof.
  unfold gen_return_stmt. intros S F X H. destruct (srt_children s) as [| e r] eqn:E.
  - ginv H. injection M as <- <-. injection H as <- <-. eapply sqk_sq; [apply sqk_jmp with (X := exits b c st); right; right; auto | auto].
  - apply bind_ok in H as ([l g] & M & H). apply bind_ok in M as ([[l0 o] g0] & M0 & M). injection M as <- <-. injection H as <- <-. rename g0 into g. assert (E0 : gchild s 0 = Ok e) by (unfold gchild; now rewrite E).
    assert (Xe : exprs e = true) by (cbn in X; now apply andb_prop in X). assert (G := good_of e s F (child_in _ _ _ E0) Xe).
    destruct (ord_int _ (gen_expr_ok f) _ _ _ _ _ _ _ G E0 M0) as (O & C & _). pose proof (keep_int _ (gen_expr_keep f) _ _ _ _ _ _ _ E0 Xe M0) as K.
    rewrite <- app_assoc. change ([IMMC_INST IMMC_INST_STRET None (Some o) None] ++ [jmp_to (g_ret g)]) with ([IMMC_INST IMMC_INST_STRET None (Some o) None; jmp_to (g_ret g)]).
    apply (sq_item b c st g (l0, [IMMC_INST IMMC_INST_STRET None (Some o) None; jmp_to (g_ret g)])); [apply (wf_end l0 [_]) | | exact K].
    exists (opr o), (opr o). split; [exact C |]. assert (R : reads (IMMC_INST IMMC_INST_STRET None (Some o) None) = opr o) by (destruct O as [(sf & v & ->) | (sf & r0 & ->)]; reflexivity).
    split.
    + constructor; [| constructor; [| constructor]].
      * split; [reflexivity |]. rewrite R. split; [apply incl_refl |]. intros n N. discriminate N.
      * split; [reflexivity |]. split; [cbn; apply incl_nil_l |]. cbn. intros n N. injection N as <-. right. right. right. split; [exact S |]. destruct K as (_ & (_ & _ & ->) & _). reflexivity.
    + right. right. eexists _, _. split; [reflexivity |]. rewrite R. apply incl_refl.
Qed.
Lemma sq_case b c sw s st cs st' : snd c = true -> deep c st -> (forall x, gchild s 1 = Ok x -> ready b c sw x) -> gen_case_stmt (gen f) s st = Ok (cs, st') -> sq b c st cs st'.
Proof.
  unfold gen_case_stmt, next_label. intros S D R H. ginv H. cbv zeta in H. ginv H. injection H as <- <-. apply deref_ok in M1. cbn [g_cases gset_label g_label] in *.
  apply (sq_child b c sw) in M2; [| exact S | exact D | exact R]. destruct M2 as (ks & E & W & O & C & De & St & N). cbn in O, De, St, N. exists (([], [normal_label (g_label st + 1)]) :: ks). splits.
  - rewrite codes_cons, E. reflexivity.
  - constructor; [apply wf_lab | exact W].
  - econstructor; [apply ok_lab |]. eapply ok_items_mono; [| exact O]. intros n [J | J]; [left; cbn [flat_map]; apply in_app_iff; now right | now right].
  - unfold cases_in in *. rewrite M1. cbn [g_cases gset_cases] in C. destruct (g_cases g); [| contradiction]. destruct C as (new & -> & Nw). exists ((g_label st + 1, x0) :: new). split; [now rewrite <- app_assoc |].
    intros p [<- | I]; [now left |]. cbn [flat_map]. apply in_app_iff. right. now apply Nw.
  - eapply default_more; [exact De |]. cbn [flat_map]. apply incl_appr, incl_refl.
  - exact St.
  - exact N.
Qed.
Lemma sq_default b c sw s st cs st' : snd c = true -> deep c st -> (forall x, gchild s 0 = Ok x -> ready b c sw x) -> gen_default_stmt (gen f) s st = Ok (cs, st') -> sq b c st cs st'.
Proof.
  unfold gen_default_stmt, next_label. intros S D R H. cbv zeta in H. ginv H. injection H as <- <-. cbn [g_cases gset_label g_label] in *.
  apply (sq_child b c sw) in M; [| exact S | exact D | exact R]. destruct M as (ks & E & W & O & C & De & St & N). cbn in O, St, N. exists (([], [normal_label (g_label st + 1)]) :: ks). splits.
  - rewrite codes_cons, E. reflexivity.
  - constructor; [apply wf_lab | exact W].
  - econstructor; [apply ok_lab |]. eapply ok_items_mono; [| exact O]. intros n [J | J]; [left; cbn [flat_map]; apply in_app_iff; now right | now right].
  - eapply cases_more; [exact C |]. cbn [flat_map]. apply incl_appr, incl_refl.
  - right. cbn [flat_map]. destruct De as [De | De]; [rewrite De; now left | apply in_app_iff; now right].
  - exact St.
  - exact N.
Qed.
Lemma sq_if b c sw s st cs st' : snd c = true -> deep c st -> (forall x, gchild s 0 = Ok x -> good x) -> (forall x, gchild s 1 = Ok x -> ready b c sw x) -> gen_if_without_else_stmt (gen f) s st = Ok (cs, st') -> sq b c st cs st'.
Proof.
  unfold gen_if_without_else_stmt, next_label. intros S D R0 R1 H. cbv zeta in H. apply bind_ok in H as ([[l j] g] & M & H). apply bind_ok in H as ([l0 g0] & M0 & H). cbn [g_label gset_label] in *.
  pose proof (keep_jmp_cond _ (gen_expr_keep f) _ _ _ _ _ _ _ (fun c E => proj2 (R0 c E)) M) as K. destruct (ord_jmp_cond _ (gen_expr_ok f) _ _ _ _ _ _ _ R0 M) as (A & C & J).
  assert (K' : keep st g) by exact K. cbn [g_next gset_label] in C.
  apply (sq_child b c sw) in M0; [| exact S | eapply keep_deep; [exact K' | exact D] | exact R1]. apply sq_sqk in M0 as (ks & Q). pose proof Q as (E & W & _).
  destruct (last_label l0) as [n |] eqn:LL; injection H as <- <-.
  - assert (HI : In n (all_marks ks)) by (apply codes_last; [exact W | now rewrite E]). destruct (J n) as (J1 & J2 & J3).
    close ([(l, [j (new_label_immcope n)])] ++ ks) ((l ++ [j (new_label_immcope n)]) ++ l0).
    eapply sqk_app; [eapply sqk_cond; [exact C | exact J1 | exact J2 | exact J3 | | exact K'] | eapply sqk_weaken; [| exact Q]].
    + left. revert HI. in_marks.
    + intros m [I | I]; [left; revert I; in_marks | right]. eapply exits_steady; [apply K' | exact I].
  - destruct (J (Lb (g_label st + 1))) as (J1 & J2 & J3).
    close ([(l, [j (new_label_immcope_from_id (g_label st + 1))])] ++ ks ++ [([], [normal_label (g_label st + 1)])]) ((l ++ [j (new_label_immcope_from_id (g_label st + 1))]) ++ l0 ++ [normal_label (g_label st + 1)]).
    eapply sqk_app; [eapply sqk_cond; [exact C | exact J1 | exact J2 | exact J3 | | exact K'] | eapply sqk_app; [eapply sqk_weaken; [| exact Q] | apply sqk_lab]].
    + left. in_marks.
    + intros m [I | I]; [left; revert I; in_marks | right]. eapply exits_steady; [apply K' | exact I].
Qed.
Lemma sq_if_else b c sw s st cs st' : snd c = true -> deep c st -> (forall x, gchild s 0 = Ok x -> good x) -> (forall i x, gchild s (Datatypes.S i) = Ok x -> ready b c sw x) -> gen_if_with_else_stmt (gen f) s st = Ok (cs, st') -> sq b c st cs st'.
Proof.
  unfold gen_if_with_else_stmt, next_label. intros S D R0 R1 H. cbv zeta in H. apply bind_ok in H as ([l g] & M & H). apply bind_ok in H as ([l0 g0] & M0 & H). apply bind_ok in H as ([l1 g1] & M1 & H). cbn [g_label gset_label] in *.
  pose proof (keep_append_jmp _ (gen_expr_keep f) _ _ _ _ _ _ _ (fun c E => proj2 (R0 c E)) M) as K. destruct (ord_append_jmp _ (gen_expr_ok f) _ _ _ _ _ _ _ R0 M) as (A & c0 & j & -> & C & J1 & J2 & J3).
  assert (K' : keep st g) by exact K. cbn [g_next gset_label] in C. assert (D1 := keep_deep _ _ _ K' D).
  apply (sq_child b c sw) in M0; [| exact S | exact D1 | apply R1]. assert (D2 := sq_deep _ _ _ _ _ _ M0 D1). apply sq_sqk in M0 as (k2 & Q2).
  apply (sq_child b c sw) in M1; [| exact S | exact D2 | apply R1]. apply sq_sqk in M1 as (k3 & Q3).
  assert (S2 : steady st g0) by (eapply steady_trans; [apply K' | eapply sqk_steady, Q2]).
  destruct (last_label (normal_label (g_label st + 1) :: l1)) as [n |] eqn:LL; injection H as <- <-.
  - assert (HI : In n (all_marks ([([], [normal_label (g_label st + 1)])] ++ k3))).
    { apply codes_last; [constructor; [apply wf_lab | apply Q3] |]. rewrite codes_app. destruct Q3 as (-> & _). exact LL. }
    close ([(c0, [j])] ++ k2 ++ [([], [IMMC_INST IMMC_INST_JMP (Some (new_label_immcope n)) None None])] ++ [([], [normal_label (g_label st + 1)])] ++ k3)
          ((c0 ++ [j]) ++ l0 ++ [IMMC_INST IMMC_INST_JMP (Some (new_label_immcope n)) None None] ++ [normal_label (g_label st + 1)] ++ l1).
    eapply sqk_app; [eapply sqk_cond; [exact C | exact J1 | exact J2 | exact J3 | | exact K'] |].
    2: eapply sqk_app; [eapply sqk_weaken; [| exact Q2] |]. 3: eapply sqk_app; [| eapply sqk_app; [apply sqk_lab | eapply sqk_weaken; [| exact Q3]]].
    + left. in_marks.
    + intros m [I | I]; [left; revert I; in_marks | right]. eapply exits_steady; [apply K' | exact I].
    + apply (sqk_item _ ([], [IMMC_INST IMMC_INST_JMP (Some (new_label_immcope n)) None None])); [apply (wf_end [] []) | apply ok_jmp | apply keep_refl]. left. revert HI. in_marks.
    + intros m [I | I]; [left; revert I; in_marks | right]. eapply exits_steady; [exact S2 | exact I].
  - close ([(c0, [j])] ++ k2 ++ [([], [jmp_to (g_label st + 1 + 1)])] ++ [([], [normal_label (g_label st + 1)])] ++ k3 ++ [([], [normal_label (g_label st + 1 + 1)])])
          ((c0 ++ [j]) ++ l0 ++ [jmp_to (g_label st + 1 + 1)] ++ [normal_label (g_label st + 1)] ++ l1 ++ [normal_label (g_label st + 1 + 1)]).
    eapply sqk_app; [eapply sqk_cond; [exact C | exact J1 | exact J2 | exact J3 | | exact K'] |].
    2: eapply sqk_app; [eapply sqk_weaken; [| exact Q2] |]. 3: eapply sqk_app; [apply sqk_jmp | eapply sqk_app; [apply sqk_lab | eapply sqk_app; [eapply sqk_weaken; [| exact Q3] | apply sqk_lab]]].
    + left. in_marks.
    + intros m [I | I]; [left; revert I; in_marks | right]. eapply exits_steady; [apply K' | exact I].
    + left. in_marks.
    + intros m [I | I]; [left; revert I; in_marks | right]. eapply exits_steady; [exact S2 | exact I].
Qed.
Lemma sq_while b c sw s st cs st' : snd c = true -> deep c st -> (forall x, gchild s 0 = Ok x -> good x) -> (forall x, gchild s 1 = Ok x -> ready true (true, snd c) sw x) -> gen_while_stmt (gen f) s st = Ok (cs, st') -> sq b c st cs st'.
Proof.
  unfold gen_while_stmt, next_label. intros S D R0 R1 H. cbv zeta in H. apply bind_ok in H as ([l g] & M & H). apply bind_ok in H as ([l0 g0] & M0 & H). injection H as <- <-. cbn [g_label gset_label] in *.
  pose proof (keep_append_jmp _ (gen_expr_keep f) _ _ _ _ _ _ _ (fun c E => proj2 (R0 c E)) M) as K. destruct (ord_append_jmp _ (gen_expr_ok f) _ _ _ _ _ _ _ R0 M) as (A & c0 & j & -> & C & J1 & J2 & J3).
  assert (K' : keep st g) by exact K. cbn [g_next gset_label] in C. assert (D1 := keep_deep _ _ _ K' D).
  apply (sq_child true (true, snd c) sw) in M0; [| exact S | exact D1 | exact R1]. apply sq_sqk in M0 as (k2 & Q2). pose proof (sqk_steady _ _ _ _ _ Q2) as (S1 & S2 & S3). cbn in S1, S2, S3.
  close ([([], [normal_label (g_label st + 1)])] ++ [(c0, [j])] ++ k2 ++ [([], [jmp_to (g_label st + 1)])] ++ [([], [normal_label (g_label st + 1 + 1)])])
        ([normal_label (g_label st + 1)] ++ (c0 ++ [j]) ++ l0 ++ [jmp_to (g_label st + 1)] ++ [normal_label (g_label st + 1 + 1)]).
  eapply sqk_app; [apply sqk_lab |]. eapply sqk_app; [eapply sqk_cond; [exact C | exact J1 | exact J2 | exact J3 | | exact K'] |].
  2: eapply sqk_app; [eapply sqk_move with (st := gset_brk (g_label st + 1 + 1) (gset_cont (g_label st + 1) g)) (st' := g0) (a' := gset_brk (g_brk g) (gset_cont (g_cont g) g0)); [eapply sqk_weaken; [| exact Q2] | reflexivity .. |] | eapply sqk_app; [apply sqk_jmp | apply sqk_lab]].
  - left. in_marks.
  - intros m [I | [(_ & I) | [(_ & I) | (I & ->)]]]; [left; revert I; in_marks | | | right; right; right]; cbn in I.
    + left. subst m. in_marks.
    + left. subst m. in_marks.
    + split; [exact I |]. f_equal. apply K'.
  - split; [reflexivity |]. split; [reflexivity | exact S3].
  - left. in_marks.
Qed.
Lemma jeq_reads l sf r v : reads (inst3 IMMC_INST_JEQ (new_label_immcope_from_id l) (IMMC_OPERAND_REG sf r) (new_int_immcope (immcsuffix_get (iliteral_nbytes v)) v)) = [reg_id r].
Proof. reflexivity. Qed.
Lemma sq_switch b c s st cs st' : snd c = true -> deep c st -> (forall x, gchild s 0 = Ok x -> good x) -> (forall x, gchild s 1 = Ok x -> ready true c true x) -> gen_switch_stmt (gen f) s st = Ok (cs, st') -> sq b c st cs st'.
Proof.
  unfold gen_switch_stmt, next_label. intros S D R0 R1 H. apply bind_ok in H as ([[c1 o] g] & M & H). cbv zeta in H. destruct (reg_child _ _ _ _ _ M) as (e & E0). assert (G := R0 _ E0).
  pose proof (keep_reg _ (gen_expr_keep f) _ _ _ _ _ _ _ E0 (proj2 G) M) as K. destruct (ord_reg _ (gen_expr_ok f) _ _ _ _ _ _ _ G E0 M) as (sf & r & -> & C & _).
  apply bind_ok in H as ([c2 g2] & M1 & H). apply bind_ok in H as (cases & M2 & H). apply deref_ok in M2. injection H as <- <-. cbn [g_label gset_label] in *. assert (D1 := keep_deep _ _ _ K D).
  apply (sq_child true c true) in M1; [| exact S | exact D1 | exact R1]. apply sq_sqk in M1 as (k2 & Q2). pose proof (sqk_steady _ _ _ _ _ Q2) as (S1 & S2 & S3). cbn in S1, S2, S3.
  pose proof Q2 as (E2 & W2 & O2 & C2 & D2 & _ & N2). unfold cases_in in C2. cbn [g_cases gset_brk gset_default gset_cases] in C2. rewrite M2 in C2. destruct C2 as (new & N0 & N). cbn in N0. subst new.
  cbn in O2, N2. unfold default_in in D2. cbn in D2.
  set (sel := List.map _ cases). set (dest := if g_default g2 >? 0 then g_default g2 else g_label g + 1).
  set (KS := [(c1, sel ++ [jmp_to dest])] ++ k2 ++ [([], [normal_label (g_label g + 1)])]).
  assert (Dest : In (Lb dest) (all_marks KS)).
  { subst dest. destruct (Z.gtb_spec (g_default g2) 0) as [Z | Z]; [| subst KS; in_marks]. destruct D2 as [D2 | D2]; [lia |]. revert D2. subst KS. in_marks. }
  assert (Sel : forall p, In p cases -> In (Lb (fst p)) (all_marks KS)).
  { intros p I. specialize (N p I). revert N. subst KS. in_marks. }
  assert (MI : ok_item (fun n => In n (all_marks KS) \/ exits b c st n) (c1, sel ++ [jmp_to dest]) (g_next st) (g_next g)).
  { exists [reg_id r], [reg_id r]. split; [exact C |]. split; [| right; left; eexists; reflexivity]. cbn [snd]. apply Forall_app. split; [| constructor; [| constructor]].
    - rewrite Forall_forall. intros x I. subst sel. apply in_map_iff in I as (p & <- & I). split; [reflexivity |]. rewrite jeq_reads. split; [apply incl_refl |]. cbn. intros n Z. injection Z as <-. left. now apply Sel.
    - split; [reflexivity |]. split; [apply incl_nil_l |]. cbn. intros n Z. injection Z as <-. left. exact Dest. }
  exists KS. splits.
  - subst KS. rewrite !codes_app, E2. cbn [flat_map item_code fst snd app]. unfold item_code. cbn [fst snd app]. rewrite <- ?app_assoc. reflexivity.
  - subst KS. apply Forall_app. split; [constructor; [apply wf_end | constructor] | apply Forall_app; split; [exact W2 | constructor; [apply wf_lab | constructor]]].
  - subst KS. cbn [g_next gset_default gset_cases gset_brk]. eapply ok_items_app; [econstructor; [exact MI | constructor] |]. eapply ok_items_app; [eapply ok_items_mono; [| exact O2] | econstructor; [apply ok_lab | constructor]].
    intros m [I | [(_ & I) | [(I & J) | (I & J)]]]; cbn in *.
    + left. revert I. in_marks.
    + left. subst m. in_marks.
    + right. right. left. split; [exact I |]. rewrite J. f_equal. apply K.
    + right. right. right. split; [exact I |]. rewrite J. f_equal. apply K.
  - apply cases_same. cbn. apply K.
  - left. cbn. apply K.
  - destruct K as (_ & (K1 & K2 & K3) & _). repeat split; cbn; congruence.
  - cbn. rewrite N2. apply K.
Qed.
Lemma sq_for b c sw i e u body t d p st cs st' : snd c = true -> deep c st -> ready b c sw i -> everywhere fine e /\ shaped e = true -> ready b c sw u -> ready true (true, snd c) sw body ->
  gen_for_stmt (gen f) (Srt t d p [i; e; u; body]) st = Ok (cs, st') -> sq b c st cs st'.
Proof.
  intros S D Ri (Fe & Se) Ru Rb H. unfold gen_for_stmt, next_label, append_child in H. cbv zeta in H. cbn [gchild nth_error srt_children deref bind g_label gset_label] in H.
  apply bind_ok in H as ([c0 g0] & M0 & H). apply (IH b c sw) in M0; [| exact S | exact D | exact Ri]. assert (D0 := sq_deep _ _ _ _ _ _ M0 D). apply sq_sqk in M0 as (k0 & Q0).
  apply bind_ok in H as ([c1 g1] & M1 & H).
  assert (B : exists k1, keep g0 g1 /\ forall X : name -> Prop, X (Lb (g_label st + 1 + 1 + 1)) -> sqk X k1 g0 c1 g1).
  { destruct (srt_is e SRT_EXPR_STMT) eqn:T.
    - destruct e as [te de pe es]. assert (te = SRT_EXPR_STMT) by (destruct te; try discriminate T; reflexivity). subst te. cbn [shaped] in Se.
      assert (R0 : forall x, gchild (Srt SRT_EXPR_STMT de pe es) 0 = Ok x -> good x).
      { intros x E. pose proof (child_in _ _ _ E) as I. eapply good_of; [exact Fe | exact I |]. rewrite forallb_forall in Se. now apply Se. }
      pose proof (keep_append_jmp _ (gen_expr_keep f) _ _ _ _ _ _ _ (fun c E => proj2 (R0 c E)) M1) as K. destruct (ord_append_jmp _ (gen_expr_ok f) _ _ _ _ _ _ _ R0 M1) as (A & c0' & j & -> & C & J1 & J2 & J3).
      exists [(c0', [j])]. split; [exact K |]. intros X HX. eapply sqk_cond; eassumption.
    - injection M1 as <- <-. exists []. split; [apply keep_refl |]. intros X _. apply sqk_nil. }
  destruct B as (k1 & K1 & Q1). assert (D1 := keep_deep _ _ _ K1 D0).
  apply bind_ok in H as ([c2 g2] & M2 & H). apply (IH true (true, snd c) sw) in M2; [| exact S | exact D1 | exact Rb]. assert (D2 : deep c g2) by exact (sq_deep _ _ _ _ _ _ M2 D1). apply sq_sqk in M2 as (k2 & Q2).
  apply bind_ok in H as ([c3 g3] & M3 & H). apply (IH b c sw) in M3; [| exact S | exact D2 | exact Ru]. apply sq_sqk in M3 as (k3 & Q3). injection H as <- <-.
  pose proof (sqk_steady _ _ _ _ _ Q0) as S0. pose proof (sqk_steady _ _ _ _ _ Q2) as (S1 & S2 & S3). cbn in S0, S1, S2, S3.
  assert (St1 : steady st g1) by (eapply steady_trans; [exact S0 | apply K1]).
  set (g2' := gset_brk (g_brk g1) (gset_cont (g_cont g1) g2)) in *.
  assert (St2 : steady st g2') by (eapply steady_trans; [exact St1 |]; split; [reflexivity | split; [reflexivity | exact S3]]).
  close (k0 ++ [([], [normal_label (g_label st + 1)])] ++ k1 ++ k2 ++ [([], [normal_label (g_label st + 1 + 1)])] ++ k3 ++ [([], [jmp_to (g_label st + 1)])] ++ [([], [normal_label (g_label st + 1 + 1 + 1)])])
        (c0 ++ [normal_label (g_label st + 1)] ++ c1 ++ c2 ++ [normal_label (g_label st + 1 + 1)] ++ c3 ++ [jmp_to (g_label st + 1)] ++ [normal_label (g_label st + 1 + 1 + 1)]).
  eapply sqk_app; [eapply sqk_start; [| | eapply sqk_weaken; [| exact Q0]]; [reflexivity | repeat split |] |].
  2: eapply sqk_app; [apply sqk_lab |]. 2: eapply sqk_app; [apply Q1 |].
  3: eapply sqk_app; [eapply sqk_move with (a' := g2'); [eapply sqk_weaken; [| exact Q2] | reflexivity .. |] |].
  5: eapply sqk_app; [apply sqk_lab |]. 5: eapply sqk_app; [eapply sqk_weaken; [| exact Q3] |]. 6: eapply sqk_app; [apply sqk_jmp | apply sqk_lab].
  - intros m [I | I]; [left; revert I; in_marks | right; exact I].
  - left. in_marks.
  - intros m [I | [(_ & I) | [(_ & I) | (I & ->)]]]; [left; revert I; in_marks | | | right; right; right]; cbn in I.
    + left. subst m. in_marks.
    + left. subst m. in_marks.
    + split; [exact I |]. f_equal. apply St1.
  - split; [reflexivity | split; [reflexivity | exact S3]].
  - intros m [I | I]; [left; revert I; in_marks | right]. eapply exits_steady; [exact St2 | exact I].
  - left. in_marks.
Qed.
Lemma sq_scope b c F st cs st' : (forall st1 cs st2, deep c st1 -> F st1 = Ok (cs, st2) -> sq b c st1 cs st2) -> deep c st -> gin_scope F st = Ok (cs, st') -> sq b c st cs st'.
Proof.
  unfold gin_scope. intros HF D H. ginv H. injection H as <- <-. apply HF in M; [| intros E; specialize (D E); unfold sym_enter; cbn; lia].
  destruct M as (ks & E & W & O & C & De & St & N). exists ks. splits; auto. unfold sym_exit in M1. destruct (g_syms g) as [| s1 [| s2 r]]; try discriminate M1; injection M1 as <-; cbn in *; lia.
Qed.
Lemma sq_tag b c s st cs st' : gen_tag_decl s st = Ok (cs, st') -> sq b c st cs st'.
Proof. unfold gen_tag_decl. intros H. ginv H. destruct x; try discriminate H; ginv H; injection H as <- <-; (apply sq_none; [reflexivity | now repeat split]). Qed.
Lemma sq_ident b c s st cs st' : gen_identifier_decl s st = Ok (cs, st') -> sq b c st cs st'.
Proof.
  unfold gen_identifier_decl. intros H. ginv H. injection H as <- <-. apply sq_none; [reflexivity |]. repeat split. cbn.
  destruct (is_global st || negb (dtype_isobject x0)); [eapply define_label_length | eapply define_memory_length]; eassumption.
Qed.
Lemma sq_string b c s st cs st' : gen_string_decl s st = Ok (cs, st') -> sq b c st cs st'.
Proof. unfold gen_string_decl. intros H. ginv H. injection H as <- <-. apply sq_none; [reflexivity |]. repeat split. cbn. eapply define_label_length. eassumption. Qed.
Definition kids_ready (b : bool) (c : bool * bool) (sw : bool) (s : srt) : Prop := forall i x, gchild s i = Ok x -> ready b c sw x.
Lemma sq_init_decl b c sw s st cs st' : snd c = true -> deep c st -> kids_ready b c sw s -> gen_init_decl (gen f) s st = Ok (cs, st') -> sq b c st cs st'.
Proof.
  unfold gen_init_decl. intros S D K H. rewrite (deep_local _ _ D S) in H. unfold gen_local_init_decl in H. apply bind_ok in H as ([c0 g0] & M & H). apply (sq_child b c sw) in M; [| exact S | exact D | apply K].
  destruct (Nat.eqb (length (srt_children s)) 1); [injection H as <- <-; exact M |]. ginv H. cbv zeta in H. ginv H. injection H as <- <-. assert (D0 := sq_deep _ _ _ _ _ _ M D).
  eapply sq_app; [exact M |].
  match goal with Q : gen f (Some _) _ _ = Ok _ |- _ => apply (IH b c sw) in Q; [eapply sq_start; [| | eapply sq_end; [| | exact Q]]; [reflexivity | repeat split | reflexivity | repeat split] | exact S | exact D0 | eapply K; eassumption] end.
Qed.
Lemma sq_elements b c sw s e : snd c = true -> kids_ready b c sw s -> forall n i st cs st', deep c st -> gen_elements (gen f) s e i n st = Ok (cs, st') -> sq b c st cs st'.
Proof.
  intros S K. induction n as [| n IHn]; intros i st cs st' D H; cbn in H; [injection H as <- <-; apply sq_none; [reflexivity | apply keep_refl] |].
  ginv H. injection H as <- <-. apply (IH b c sw) in M0; [| exact S | exact D | eapply K; eassumption]. eapply sq_app; [exact M0 |]. eapply IHn; [| exact M1]. eapply sq_deep; eassumption.
Qed.
Lemma sq_members b c sw s base : snd c = true -> kids_ready b c sw s -> forall ms i st cs st', deep c st -> gen_local_members (gen f) s base ms i st = Ok (cs, st') -> sq b c st cs st'.
Proof.
  intros S K. induction ms as [| [[n d] off] ms IHm]; intros i st cs st' D H; cbn in H; [injection H as <- <-; apply sq_none; [reflexivity | apply keep_refl] |].
  ginv H. injection H as <- <-. apply (IH b c sw) in M0; [| exact S | exact D | eapply K; eassumption]. assert (D0 : deep c g) by exact (sq_deep _ _ _ _ _ _ M0 D).
  eapply sq_app; [eapply sq_start; [| | exact M0]; [reflexivity | repeat split] |]. eapply IHm; [exact D0 | exact M1].
Qed.
Lemma sq_struct b c sw d s st cs st' : snd c = true -> deep c st -> kids_ready b c sw s -> gen_struct_initializer (gen f) d s st = Ok (cs, st') -> sq b c st cs st'.
Proof. unfold gen_struct_initializer. intros S D K H. destruct d; try discriminate H. rewrite (deep_local _ _ D S) in H. eapply sq_members; eauto. Qed.
Lemma sq_array b c sw d e n s st cs st' : snd c = true -> deep c st -> kids_ready b c sw s -> gen_array_initializer (gen f) d e n s st = Ok (cs, st') -> sq b c st cs st'.
Proof.
  unfold gen_array_initializer. intros S D K H. ginv H. destruct (srt_is x SRT_SLITERAL_EXPR); [| eapply sq_elements; eauto].
  ginv H. rewrite (deep_local _ _ D S) in H. injection H as <- <-.
  apply (sq_item b c st _ ([], [inst2 IMMC_INST_STR (new_mem_immcope (g_off st)) (new_str_immcope x0)])); [apply (wf_end [] []) | apply ok_inst; reflexivity | repeat split].
Qed.
Lemma not_init s i st r c : gen_child_int (gen f) s i st = Ok r -> gchild s i = Ok c -> srt_is c SRT_INIT = false.
Proof.
  unfold gen_child_int. intros H E. ginv H. rewrite E in M. injection M as <-. destruct (srt_is c SRT_INIT) eqn:T; [exfalso | reflexivity]. destruct c as [t d p cs]. assert (t = SRT_INIT) by (destruct t; try discriminate T; reflexivity). subst t.
  cbn [strip_casts] in M1. injection M1 as <-. cbn [srt_is srt_type] in H. assert (L0 : srt_is (Srt SRT_INIT d p cs) SRT_ILITERAL_EXPR = false) by reflexivity. rewrite L0 in H. ginv H. match goal with Q : gen f None _ _ = Ok _ |- _ => clear - Q; destruct f; [discriminate Q |]; cbn in Q; discriminate Q end.
Qed.
Lemma sq_scalar b c d s st cs st' : everywhere fine s -> shaped s = true -> srt_type s = SRT_INIT -> gen_local_scalar_initializer (gen f) d s st = Ok (cs, st') -> sq b c st cs st'.
Proof.
  unfold gen_local_scalar_initializer. intros F X T H. cbv zeta in H. apply bind_ok in H as ([[c1 o] g] & M & H). injection H as <- <-. destruct (int_child _ _ _ _ _ M) as (e & E). pose proof (not_init _ _ _ _ _ M E) as N.
  pose proof (child_in _ _ _ E) as I. assert (Xe : exprs e = true).
  { destruct s as [t ds p ss]. cbn in T. subst t. cbn [shaped srt_children] in X, I. apply andb_prop in X as [X1 X2]. rewrite forallb_forall in X1, X2. specialize (X1 _ I). specialize (X2 _ I). unfold init_item in X2. rewrite N in X2. cbn [orb] in X2.
    destruct e as [te ? ? ?]. cbn [srt_type] in X2. destruct te; try discriminate X2; exact X1. }
  assert (G := good_of _ _ F I Xe). destruct (ord_int _ (gen_expr_ok f) _ _ _ _ _ _ _ G E M) as (O & C & _). pose proof (keep_int _ (gen_expr_keep f) _ _ _ _ _ _ _ E Xe M) as K.
  apply (sq_item b c st _ (c1, [inst2 IMMC_INST_STORE (new_mem_immcope (g_off st)) o])); [apply (wf_end c1 []) | | eapply keep_trans; [exact K | repeat split]].
  assert (R : reads (inst2 IMMC_INST_STORE (new_mem_immcope (g_off st)) o) = opr o) by (destruct O as [(sf & v & ->) | (sf & r0 & ->)]; reflexivity).
  exists (opr o), (opr o). split; [exact C |]. split.
  - constructor; [| constructor]. split; [reflexivity |]. rewrite R. split; [apply incl_refl |]. intros n Z. discriminate Z.
  - right. right. eexists _, _. split; [reflexivity |]. rewrite R. apply incl_refl.
Qed.
Lemma sq_initializer b c sw od s st cs st' : snd c = true -> deep c st -> kids_ready b c sw s -> everywhere fine s -> shaped s = true -> srt_type s = SRT_INIT -> gen_initializer (gen f) od s st = Ok (cs, st') -> sq b c st cs st'.
Proof.
  unfold gen_initializer. intros S D K F X T H. rewrite (deep_local _ _ D S) in H. ginv H. destruct x; try (now eapply sq_scalar; eauto); try (now eapply sq_array; eauto); try (now eapply sq_struct; eauto).
  ginv H. eapply sq_struct; eauto.
Qed.
Lemma expr_none od s st : is_expr (srt_type s) = true -> gen_body (gen f) od s st = gen_body (gen f) None s st.
Proof. intros H. unfold gen_body. destruct (srt_type s); try discriminate H; reflexivity. Qed.
Lemma Forall_kids b c sw s : Forall (ready b c sw) (srt_children s) -> kids_ready b c sw s.
Proof. intros F i x E. rewrite Forall_forall in F. eapply F, child_in, E. Qed.
Lemma sq_body b c sw od s st cs st' : snd c = true -> deep c st -> ready b c sw s -> gen_body (gen f) od s st = Ok (cs, st') -> sq b c st cs st'.
Proof.
  intros S D R H. destruct (is_expr (srt_type s)) eqn:Ex.
  { rewrite expr_none in H by exact Ex. destruct R as (I & F & X). assert (X' : exprs s = true) by (destruct s as [t d p ss]; cbn in Ex |- *; destruct t; try discriminate Ex; exact X).
    assert (G : good s) by (split; assumption). rewrite <- (app_nil_r cs). apply (sq_item b c st st' (cs, [])); [apply wf_code | | exact (gen_expr_keep (Datatypes.S f) _ _ _ _ X' H)].
    eapply expr_item. exact (gen_expr_ok (Datatypes.S f) _ _ _ _ G H). }
  pose proof (ready_children _ _ _ _ R) as K. destruct R as (I & F & X). unfold gen_body in H.
  assert (KT : transparent (srt_type s) = true -> kids b c sw s) by (intros T; now apply kids_inside).
  destruct (srt_type s) eqn:T; try discriminate H; try discriminate Ex; cbn [transparent opaque is_expr] in K; try (specialize (K eq_refl eq_refl)).
  all: try solve [eapply sq_list; [exact S | exact K | exact D | exact H]].
  all: try solve [eapply sq_tag; exact H | eapply sq_ident; exact H | eapply sq_string; exact H].
  all: try solve [eapply sq_scope; [| exact D | exact H]; intros st1 cs1 st2 D1 H1; eapply sq_list; [exact S | exact K | exact D1 | exact H1]].
  all: try solve [eapply sq_initializer; [exact S | exact D | apply Forall_kids, K | exact F | exact X | exact T | exact H]].
  all: pose proof (fine_children _ F) as FC; destruct s as [t d p ss]; cbn in T; subst t; cbn [inside shaped srt_children] in I, X, FC; rewrite ?inside_all in I; try contradiction.
  - destruct I as [_ I]. eapply sq_init_decl; [exact S | exact D | exact (Forall_kids b c sw (Srt SRT_INIT_DECL d p ss) (shaped_list _ _ _ _ I FC X)) | exact H].
  - destruct I as [_ I]. eapply sq_case; [exact S | exact D | | exact H]. intros x E. destruct ss as [| v [| y ss]]; try discriminate E. cbn in E. injection E as <-. cbn [forallb] in X. apply andb_prop in X as [X _].
    rewrite Forall_forall in I, FC. split; [apply I; cbn; auto | split; [apply FC; cbn; auto | exact X]].
  - destruct I as [_ I]. eapply sq_default; [exact S | exact D | | exact H]. exact (Forall_kids b c sw (Srt SRT_DEFAULT_STMT d p ss) (shaped_list _ _ _ _ I FC X) 0%nat).
  - injection H as <- <-. eapply sqk_sq; [apply sqk_jmp with (X := exits b c st); right; left; auto | auto].
  - injection H as <- <-. eapply sqk_sq; [apply sqk_jmp with (X := exits b c st); left; auto | auto].
  - eapply sq_return; [exact S | exact F | exact X | exact H].
  - eapply sq_expression; [exact F | exact X | exact H].
  - injection H as <- <-. apply sq_none; [reflexivity | apply keep_refl].
  - assert (R0 : forall x, gchild (Srt SRT_IF_STMT d p ss) 0 = Ok x -> good x).
    { intros x E. destruct ss as [| e ss]; [discriminate E |]. cbn in E. injection E as <-. apply andb_prop in X as [X _]. eapply good_of; [exact F | now left | exact X]. }
    assert (R1 : forall i x, gchild (Srt SRT_IF_STMT d p ss) (Datatypes.S i) = Ok x -> ready b c sw x).
    { intros i x E. destruct ss as [| e ss]; [discriminate E |]. pose proof (child_in _ _ _ E) as J. apply andb_prop in X as [_ X]. unfold gchild in E. cbn in E. apply deref_ok in E. apply nth_error_In in E.
      rewrite Forall_forall in I, FC. rewrite forallb_forall in X. split; [now apply I | split; [now apply FC | now apply X]]. }
    unfold gen_if_else_stmt in H. destruct (_ =? 2)%nat; [eapply sq_if; [exact S | exact D | exact R0 | apply R1 | exact H] | eapply sq_if_else; [exact S | exact D | exact R0 | exact R1 | exact H]].
  - destruct ss as [| e [| body [|]]]; try contradiction. destruct I as [_ Ib]. cbn [forallb] in X. apply andb_prop in X as [Xe Xb]. rewrite andb_true_r in Xb. inversion FC as [| ? ? _ FC']; subst. inversion FC'; subst.
    eapply sq_switch; [exact S | exact D | | | exact H]; intros x E; cbn in E; injection E as <-; [eapply good_of; [exact F | now left | exact Xe] | split; [exact Ib | split; assumption]].
  - destruct ss as [| e [| body [|]]]; try contradiction. destruct I as [_ Ib]. cbn [forallb] in X. apply andb_prop in X as [Xe Xb]. rewrite andb_true_r in Xb. inversion FC as [| ? ? _ FC']; subst. inversion FC'; subst.
    eapply sq_while; [exact S | exact D | | | exact H]; intros x E; cbn in E; injection E as <-; [eapply good_of; [exact F | now left | exact Xe] | split; [exact Ib | split; assumption]].
  - destruct ss as [| i [| e [| u [| body [|]]]]]; try contradiction. destruct I as (I1 & I2 & I3 & I4). cbn in X. repeat match type of X with _ && _ = true => let Y := fresh "Y" in apply andb_prop in X as [Y X] end.
    eapply sq_scope; [| exact D | exact H]. intros st1 cs1 st2 D1 H1.
    assert (FA : forall x, In x [i; e; u; body] -> everywhere fine x) by (now rewrite Forall_forall in FC).
    assert (Fi := FA i). assert (Fe := FA e). assert (Fu := FA u). assert (Fb := FA body). cbn in Fi, Fe, Fu, Fb.
    apply (sq_for b c sw i e u body SRT_FOR_STMT d p st1 cs1 st2 S D1); auto; (split; [assumption |]); auto 10.
Qed.
End Stmt.
Theorem gen_sq : forall f b c sw od s st cs st', snd c = true -> deep c st -> ready b c sw s -> gen f od s st = Ok (cs, st') -> sq b c st cs st'.
Proof. induction f as [| f IH]; intros b c sw od s st cs st' S D R H; [discriminate H |]. exact (sq_body f IH _ _ _ _ _ _ _ _ S D R H). Qed.
