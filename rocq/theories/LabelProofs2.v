(** Proofs for C29: functions, objects and the whole program *)
From Coq Require Import Permutation FinFun.
From Verif Require AsmSpec AsmProofs.
From Verif Require Import Base AstModel DtypeModel SymtabModel SrtModel ImmcModel ImmcgenModel TypeSpec ElabSpec ElabProofs ElabProofs2 ResolverSpec ResolverProofs LabelSpec LabelProofs.
Local Open Scope Z_scope.
#[local] Arguments create_label_name : simpl never.
#[local] Arguments create_sliteral_label : simpl never.

(** * Accepted statements are where they may be *)
Lemma srt_induction (P : srt -> Prop) : (forall t d p cs, Forall P cs -> P (Srt t d p cs)) -> forall s, P s.
Proof.
  intros H. fix IH 1. intros [t d p cs]. apply H. induction cs as [| x cs IHcs]; constructor; [apply IH | exact IHcs].
Qed.
Lemma everywhere_child (P : srt -> Prop) s c : everywhere P s -> In c (srt_children s) -> everywhere P c.
Proof. intros H I around x O. apply (H (s :: around)). now apply occurs_below with c. Qed.
Lemma call_shape d p cs : node_typed (Srt SRT_CALL_EXPR d p cs) -> match cs with [_; Srt SRT_ARG_LIST _ _ _] => True | _ => False end.
Proof.
  intros H. remember (Srt SRT_CALL_EXPR d p cs) as s eqn:E.
  destruct H; unfold node, stmt_node in *; try discriminate E; try (injection E; intros; subst; cbn in *; intuition discriminate).
  all: injection E; intros; subst; exact I.
Qed.
Lemma expr_inside : forall s b c sw, everywhere sound_node s -> inside b c sw s.
Proof.
  apply (srt_induction (fun s => forall b c sw, everywhere sound_node s -> inside b c sw s)).
  intros t d p cs IH b c sw H.
  assert (F : fold_right and True (List.map (inside b c sw) cs)).
  { apply inside_all. rewrite Forall_forall in IH |- *. intros x I. apply IH; [assumption |]. now apply (everywhere_child _ _ _ H). }
  destruct (everywhere_here _ _ H) as (T & _ & N). cbn [srt_type] in N.
  destruct t; try exact F; try (exfalso; apply N; cbn; tauto). split; [exact F |]. eapply call_shape. exact T.
Qed.
Lemma item_inside : forall s b c sw, everywhere sound_item s -> snd c = true -> inside b c sw s.
Proof.
  apply (srt_induction (fun s => forall b c sw, everywhere sound_item s -> snd c = true -> inside b c sw s)).
  intros t d p cs IH b c sw H S.
  assert (F : fold_right and True (List.map (inside b c sw) cs)).
  { apply inside_all. rewrite Forall_forall in IH |- *. intros x I. apply IH; [assumption | | assumption]. now apply (everywhere_child _ _ _ H). }
  destruct (everywhere_here _ _ H) as (T & _ & N). cbn [srt_type] in N.
  destruct t; try exact F; try (exfalso; apply N; cbn; tauto); (split; [| try exact F]); [exact S | exact F | eapply call_shape; exact T].
Qed.
Lemma tag_inside s b c sw : tag_decl s = true -> inside b c sw s.
Proof.
  intros T. destruct s as [t d p cs]. unfold tag_decl in T. destruct t; try discriminate. destruct d as [[] |]; try discriminate. destruct p; try discriminate. destruct cs; [| discriminate]. exact I.
Qed.
Lemma elab_inside E a s v E' b c sw : elab E a s E' -> value_of s v -> inside b c sw v.
Proof. intros H V. apply expr_inside. eapply value_everywhere; [exact V |]. exact (proj1 elab_everywhere _ _ _ _ H). Qed.
Lemma stmt_inside C :
  (forall E a s E', stmt C E a s E' -> inside (in_loop C || in_switch C) (in_loop C, true) (in_switch C) s)
  /\ (forall E items cs E', block C E items cs E' -> Forall (inside (in_loop C || in_switch C) (in_loop C, true) (in_switch C)) cs).
Proof.
  apply (stmt_mutind (fun C E a s E' => inside (in_loop C || in_switch C) (in_loop C, true) (in_switch C) s)
    (fun C E items cs E' => Forall (inside (in_loop C || in_switch C) (in_loop C, true) (in_switch C)) cs)); clear C; intros C; intros; cbn [in_loop in_switch] in *.
  - cbn. now apply inside_all.
  - cbn. splits; auto. apply expr_inside. exact (proj1 elab_everywhere _ _ _ _ H0).
  - cbn. auto.
  - cbn. assumption.
  - cbn. apply orb_true_iff. tauto.
  - cbn. auto.
  - cbn. splits; auto. apply expr_inside. assert (V : everywhere sound_node v) by (eapply value_everywhere; [eassumption |]; exact (proj1 elab_everywhere _ _ _ _ H1)). eapply assigned_everywhere; eassumption.
  - cbn. splits; auto. eapply elab_inside; eauto.
  - cbn. auto.
  - cbn. splits; auto. eapply elab_inside; eauto.
  - cbn. splits; auto. eapply elab_inside; eauto.
  - cbn. rewrite orb_true_r in H3. splits; auto. apply expr_inside. eapply promoted_everywhere; [eassumption |]. eapply value_everywhere; [eassumption |]. exact (proj1 elab_everywhere _ _ _ _ H).
  - cbn. splits; auto. eapply elab_inside; eauto.
  - cbn. splits; auto.
  - cbn. splits; auto. apply item_inside; [| reflexivity]. eapply declaration_everywhere; eassumption.
  - constructor.
  - constructor; [now apply tag_inside | assumption].
  - constructor; [apply item_inside; [eapply declaration_everywhere; eassumption | reflexivity] | assumption].
  - constructor; assumption.
Qed.

(** * Functions and objects *)
Inductive blocks : list immc -> Prop :=
| blocks_nil : blocks []
| blocks_cons e body rest : entry e -> (forall x, In x body -> ~ entry x) -> jumps_to (fun l => (1 <= occ l body)%nat) body -> blocks rest -> blocks (e :: body ++ rest).
Lemma blocks_app a b : blocks a -> blocks b -> blocks (a ++ b).
Proof. intros A B. induction A; [exact B |]. cbn [app]. rewrite <- app_assoc. now constructor. Qed.
Lemma entry_label e : entry e -> forall t, ~ jump e t.
Proof. intros (v & n & [-> | ->]) t (t' & f & g & _ & E); discriminate. Qed.
Lemma blocks_resolved cs : blocks cs -> jumps_resolved cs.
Proof.
  induction 1 as [| e body rest N I J B IH]; intros c1 j c2 target E T.
  { now apply app_cons_not_nil in E. }
  destruct c1 as [| x c1]; cbn [app] in E; injection E as <- E; [now apply entry_label in T |].
  assert (S : (exists b2, body = c1 ++ j :: b2 /\ c2 = b2 ++ rest) \/ (exists d, c1 = body ++ d /\ rest = d ++ j :: c2)).
  { clear - E. revert c1 E. induction body as [| y body IH]; intros c1 E; cbn [app] in E.
    - right. exists c1. split; [reflexivity | exact E].
    - destruct c1 as [| z c1]; cbn [app] in E; injection E as <- E; [left; exists body; auto |].
      destruct (IH _ E) as [(b2 & -> & F) | (d & -> & F)]; [left; exists b2; auto | right; exists d; auto]. }
  destruct S as [(b2 & -> & ->) | (d & -> & ->)].
  - destruct (J j target) as (l & -> & O); [apply in_app_iff; right; now left | assumption |].
    exists [], e, c1, b2, rest, l. splits; auto.
    + intros c C. apply I. apply in_app_iff in C as [C | C]; apply in_app_iff; [now left | right; now right].
    + apply occ_in in O. rewrite labels_app in O |- *. apply in_app_iff in O as [O | O]; apply in_app_iff; [now left | right].
      unfold labels in O. cbn [flat_map] in O. apply in_app_iff in O as [O | O]; [| exact O]. destruct T as (t & f & g & _ & ->). destruct O.
  - destruct (IH d j c2 target eq_refl T) as (before & e' & b1 & b2 & after & l & -> & -> & P1 & P2 & P3 & P4).
    exists (e :: body ++ before), e', b1, b2, after, l. splits; auto. cbn [app]. now rewrite <- app_assoc.
Qed.
(** code for the names [ns] *)
Record chunk (lo hi : Z) (ns : list name) (cs : list immc) : Prop := {
  k_mono : lo <= hi;
  k_once : forall i, (occ (create_label_name i) cs <= 1)%nat /\ ((1 <= occ (create_label_name i) cs)%nat -> lo < i <= hi);
  k_other : forall n, (forall i, n <> create_label_name i) -> (occ n cs <= count_occ name_dec ns n)%nat;
  k_blocks : blocks cs
}.
Lemma chunk_nil lo : chunk lo lo [] [].
Proof. split; [lia | | | constructor]. { intros i. rewrite occ_nil. lia. } { intros n _. rewrite occ_nil. cbn. lia. } Qed.
Lemma chunk_app lo mid hi n1 n2 c1 c2 : chunk lo mid n1 c1 -> chunk mid hi n2 c2 -> chunk lo hi (n1 ++ n2) (c1 ++ c2).
Proof.
  intros [A1 A2 A3 A4] [B1 B2 B3 B4]. split; [lia | | | now apply blocks_app].
  - intros i. rewrite occ_app. specialize (A2 i). specialize (B2 i). lia.
  - intros n N. rewrite occ_app, count_occ_app. specialize (A3 n N). specialize (B3 n N). lia.
Qed.
(** the names an item of the program defines *)
Definition declarator_names (s : srt) : list name :=
  match s with
  | Srt SRT_INIT_DECL _ _ (Srt SRT_IDENT_DECL _ (SPName n) _ :: _) => [n]
  | Srt SRT_INIT_DECL _ _ (Srt SRT_STR_DECL _ (SPStrId i) _ :: _) => [create_sliteral_label i]
  | _ => [] end.
Definition item_names (s : srt) : list name :=
  match s with
  | Srt SRT_FUNC_DEF _ _ (Srt SRT_IDENT_DECL _ (SPName n) _ :: _) => [n]
  | Srt SRT_DECL_LIST _ _ ds => flat_map declarator_names ds
  | _ => [] end.
Definition plain_name (n : name) : Prop := forall i, n <> create_label_name i.
Lemma occ_entry n t v m : occ n [IMMC_LABEL t v m] = if name_dec m n then 1%nat else 0%nat.
Proof. reflexivity. Qed.
Lemma chunk_entry lo hi t v n body : plain_name n -> t = IMMC_LABEL_FUNCTION \/ t = IMMC_LABEL_VARIABLE ->
  labx (fun _ => False) lo hi body -> chunk lo hi [n] (IMMC_LABEL t v n :: body).
Proof.
  intros N T [A1 A2 A3 A4 A5]. split; [exact A1 | | |].
  - intros i. rewrite occ_cons, occ_entry. destruct (name_dec n (create_label_name i)) as [E | _]; [now destruct (N i) | exact (A2 i)].
  - intros m M. rewrite occ_cons, occ_entry, (A3 m M). cbn [count_occ]. destruct (name_dec n m); lia.
  - rewrite <- (app_nil_r body). apply blocks_cons; [| assumption | | constructor].
    + destruct T as [-> | ->]; exists v, n; auto.
    + eapply jumps_weaken; [| exact A5]. intros l [H | []]. exact H.
Qed.
Lemma exits_none st l : exits false (false, false) st l -> False.
Proof. intros [[H _] | [[H _] | [H _]]]; discriminate. Qed.

Definition file_scope (st : gst) : Prop := length (g_syms st) = 1%nat.
Lemma params_plain : forall ps i st cs st', gen_params ps i st = Ok (cs, st') -> Forall plain cs /\ same st st'.
Proof.
  induction ps as [| [n d] ps IH]; intros i st cs st' H; cbn in H; [injection H as <- <-; split; [constructor | apply same_refl] |].
  ginv H. injection H as <- <-. apply IH in M3 as [A B]. split.
  - constructor; [| exact A]. cbn. intuition discriminate.
  - eapply same_trans; [| exact B]. apply same_syms. eapply define_memory_length. eassumption.
Qed.
Lemma function_chunk f E a s E' st cs st' : function_definition E a s E' -> (forall n, In n (item_names s) -> plain_name n) ->
  file_scope st -> gen f None s st = Ok (cs, st') -> chunk (g_label st) (g_label st') (item_names s) cs /\ file_scope st'.
Proof.
  intros F N S H. destruct F as [E t p ts q specs da tb qb items cs0 base E1 n ps ret E2 syms1 syms2 syms3 body E3 syms4 E4 D0 D1 D2 D3 D4 D5 D6 B D7 D8].
  pose proof (proj2 (stmt_inside (mkcontext false false (Some ret))) _ _ _ _ B) as I. cbn [in_loop in_switch orb] in I.
  destruct f as [| f]; [discriminate |]. cbn [gen] in H. unfold gen_body in H. cbn [srt_type] in H. unfold gen_function_definition in H.
  unfold next_label in H. cbn [gchild nth_error srt_children deref bind srt_name srt_payload dty srt_dtype stmt_node] in H.
  apply bind_ok in H as (t1 & M1 & H). cbv zeta in H. apply bind_ok in H as (t2 & M2 & H). cbv beta iota zeta in H. cbn [bind] in H.
  apply bind_ok in H as ([c1 g1] & M3 & H). apply bind_ok in H as ([c2 g2] & M4 & H). apply bind_ok in H as (nb & M5 & H). cbv zeta in H.
  apply bind_ok in H as (tg & M6 & H). apply bind_ok in H as (t3 & M7 & H). apply bind_ok in H as (t4 & M8 & H). injection H as <- <-.
  apply params_plain in M3 as [P S1].
  assert (L2 : length t2 = 2%nat).
  { apply define_label_length in M1. unfold file_scope in S. rewrite S in M1. unfold sym_set_nbytes, sym_enter in M2. injection M2 as <-. cbn. now rewrite M1. }
  assert (A : lab false (false, true) g1 c2 g2).
  { eapply lab_list; [exact (gen_lab f) | exact I | | exact M4]. intros _. destruct S1 as (_ & _ & _ & _ & _ & _ & ->). cbn. now rewrite L2. }
  destruct S1 as (S1 & S2 & S3 & S4 & S5 & S6 & S7). cbn in S1, S2, S3, S4, S5, S6, S7. cbn [item_names g_label gset_tags gset_syms].
  split.
  - cbn [app]. unfold new_label_immc. apply chunk_entry; [apply N; now left | now left |].
    set (e := IMMC_INST IMMC_INST_ENTER _ _ _). set (lv := IMMC_INST IMMC_INST_LEAVE _ _ _).
    assert (X : g_ret g2 = g_label st + 1) by (rewrite (lab_ret _ _ _ _ _ A); exact S4). rewrite X.
    set (glue := e :: c1 ++ [normal_label (g_label st + 1); lv]).
    assert (PC : forall n, occ n c1 = 0%nat) by (intros m; now apply occ_plain).
    assert (LC : labels c1 = []). { destruct (labels c1) as [| m ls] eqn:LE; [reflexivity |]. specialize (PC m). unfold occ in PC. rewrite LE in PC. cbn in PC. destruct (name_dec m m); [discriminate | contradiction]. }
    assert (EG : labels glue = List.map create_label_name [g_label st + 1]).
    { subst glue. change (e :: c1 ++ [normal_label (g_label st + 1); lv]) with ([e] ++ c1 ++ [normal_label (g_label st + 1); lv]). rewrite !labels_app, LC. reflexivity. }
    assert (Y : lab false (false, false) st (e :: c1 ++ c2 ++ [normal_label (g_label st + 1); lv])
       (gset_default (g_default st) (gset_cases (g_cases st) (gset_ret (g_ret st) (gset_syms (g_syms st) (gset_cont (g_cont st) (gset_brk (g_brk st) g2))))))).
    { eapply (lab_frame (gen f) (gen_lab f) (fun l => l = create_label_name (g_label st + 1)) false (false, false) st _ _ _ c2 glue).
      - apply (labx_lab _ _ _ _ _ _ (g_label g1) (g_label g2) A eq_refl eq_refl). intros l [[Q _] | [[Q _] | [_ Q]]]; try discriminate Q. rewrite Q, S4. reflexivity.
      - lia.
      - reflexivity.
      - subst glue. apply perm_glue. rewrite Permutation_app_swap_app. apply Permutation_refl.
      - exact EG.
      - repeat (apply NoDup_cons; [cbn; lia |]); apply NoDup_nil.
      - intros i [<- | []]. lia.
      - intros x HI. subst glue. destruct HI as [<- | HI]; [intros (? & ? & [? | ?]); discriminate |].
        apply in_app_iff in HI as [HI | [<- | [<- | []]]]; [| intros (? & ? & [? | ?]); discriminate ..].
        rewrite Forall_forall in P. specialize (P _ HI). intros (? & ? & [-> | ->]); exact P.
      - subst glue. apply jumps_cons; [apply jumps_inst; cbn; intuition discriminate |]. apply jumps_app; [now apply jumps_plain |].
        apply jumps_cons; [apply jumps_label | apply jumps_inst; cbn; intuition discriminate].
      - intros l ->. left. rewrite EG. now left.
      - reflexivity.
      - reflexivity.
      - reflexivity.
      - now apply case_labels_same.
      - now left.
      - reflexivity. }
    apply (labx_lab _ _ _ _ _ _ _ _ Y); [reflexivity | reflexivity | intros l Q; exact (exits_none _ _ Q)].
  - unfold file_scope. cbn. pose proof (lab_depth _ _ _ _ _ A) as DD. rewrite S7, L2 in DD. unfold sym_set_nbytes in M7. destruct (g_syms g2) as [| s0 r]; [discriminate |]. injection M7 as <-.
    unfold sym_exit in M8. destruct r as [| s1 r]; injection M8 as <-; cbn in *; lia.
Qed.
