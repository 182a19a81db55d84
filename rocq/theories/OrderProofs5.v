(** Proofs for C35 and C36: statements *)
From Verif Require Import Base AstModel DtypeModel SymtabModel SrtModel ImmcModel ImmcSem ImmcgenModel TypeSpec ElabSpec ElabProofs ResolverSpec ResolverProofs LabelSpec LabelProofs LabelProofs2 RegSpec GenSpec OrderSpec OrderProofs OrderProofs2 OrderProofs3 OrderProofs4 OrderProofs6.
Local Open Scope Z_scope.
#[local] Arguments create_label_name : simpl never.
#[local] Arguments create_sliteral_label : simpl never.
Notation Lb := create_label_name.

Lemma ok_item_mono (P Q : name -> Prop) k n0 n1 : (forall n, P n -> Q n) -> ok_item P k n0 n1 -> ok_item Q k n0 n1.
Proof. intros PQ (A & R & C & F & X). exists A, R. split; [exact C |]. split; [| exact X]. eapply Forall_impl; [| exact F]. intros c (W & I & J). auto. Qed.
Lemma ok_items_mono (P Q : name -> Prop) : (forall n, P n -> Q n) -> forall ks n0 n1, ok_items P ks n0 n1 -> ok_items Q ks n0 n1.
Proof. intros PQ ks n0 n1. induction 1; econstructor; [eapply ok_item_mono |]; eassumption. Qed.
Lemma ok_items_app P a b n0 n1 n2 : ok_items P a n0 n1 -> ok_items P b n1 n2 -> ok_items P (a ++ b) n0 n2.
Proof. induction 1; [auto |]. intros B. cbn. econstructor; [eassumption | auto]. Qed.
Lemma ok_lab P t v n m : ok_item P ([], [IMMC_LABEL t v n]) m m.
Proof. exists [], []. split; [apply code_nil |]. split; [| now left]. repeat constructor; [apply incl_refl | discriminate]. Qed.
Lemma ok_inst P t d f g m : writes (IMMC_INST t d f g) = None -> reads (IMMC_INST t d f g) = [] -> goes_to (IMMC_INST t d f g) = None -> ok_item P ([], [IMMC_INST t d f g]) m m.
Proof. intros W R J. exists [], []. split; [apply code_nil |]. split; [| now left]. constructor; [| constructor]. split; [exact W |]. rewrite R, J. split; [apply incl_refl | discriminate]. Qed.
Lemma ok_jmp (P : name -> Prop) l m : P l -> ok_item P ([], [IMMC_INST IMMC_INST_JMP (Some (new_label_immcope l)) None None]) m m.
Proof. intros H. exists [], []. split; [apply code_nil |]. split; [| now left]. repeat constructor; [apply incl_refl |]. cbn. intros n E. injection E as <-. exact H. Qed.
Lemma ok_cond (P : name -> Prop) c0 j n0 n1 A n : code n0 c0 n1 A A -> jump_im n j -> incl (reads j) A -> incl A (reads j) -> P n -> ok_item P (c0, [j]) n0 n1.
Proof.
  intros C (J1 & _ & J3) I I' H. exists A, A. split; [exact C |]. split; [| right; right; eexists _, _; split; [reflexivity | exact I']].
  constructor; [| constructor]. split; [exact J3 |]. split; [exact I |]. rewrite J1. intros m E. injection E as <-. exact H.
Qed.
(** the last label of an item is its mark *)
Definition wf_item (k : item) : Prop := forall n, last_label (item_code k) = Some n -> In n (marks k).
Lemma last_app a c : last_label (a ++ [c]) = match c with IMMC_LABEL _ _ n => Some n | _ => None end.
Proof. unfold last_label. rewrite rev_app_distr. reflexivity. Qed.
Lemma wf_lab t v n : wf_item ([], [IMMC_LABEL t v n]).
Proof. intros m H. cbn in *. injection H as <-. now left. Qed.
Lemma wf_code cs : wf_item (cs, []).
Proof. intros m H. unfold item_code, marks in *. cbn [fst snd] in *. rewrite app_nil_r in H. rewrite H. destruct cs; now left. Qed.
Lemma wf_end cs js t d f g : wf_item (cs, js ++ [IMMC_INST t d f g]).
Proof. intros m H. unfold item_code in H. cbn [fst snd] in H. rewrite app_assoc, last_app in H. discriminate H. Qed.
Lemma wf_jump cs n j : jump_im n j -> wf_item (cs, [j]).
Proof. intros (J & _). destruct j; try discriminate J. apply (wf_end cs []). Qed.
Lemma codes_app a b : codes (a ++ b) = codes a ++ codes b.
Proof. apply flat_map_app. Qed.
Lemma codes_last : forall ks n, Forall wf_item ks -> last_label (codes ks) = Some n -> In n (all_marks ks).
Proof.
  induction ks as [| k ks IH] using rev_ind; intros n F H; [discriminate H |]. apply Forall_app in F as [F Fk]. inversion Fk; subst. rewrite codes_app in H. rewrite flat_map_app, in_app_iff. cbn in H |- *. rewrite app_nil_r in *.
  destruct (item_code k) as [| c r] eqn:E using rev_ind.
  - rewrite app_nil_r in H. left. now apply IH.
  - right. apply H2. rewrite E. rewrite app_assoc, last_app in H. now rewrite last_app.
Qed.
Lemma codes_cons k ks : codes (k :: ks) = item_code k ++ codes ks.
Proof. reflexivity. Qed.

Definition cases_in (st st' : gst) (ks : list item) : Prop :=
  match g_cases st, g_cases st' with
  | None, None => True
  | Some l, Some l' => exists new, l' = l ++ new /\ forall p, In p new -> In (Lb (fst p)) (all_marks ks)
  | _, _ => False
  end.
Definition default_in (st st' : gst) (ks : list item) : Prop := g_default st' = g_default st \/ In (Lb (g_default st')) (all_marks ks).
(** states that agree except for registers *)
Definition steady (st st' : gst) : Prop := g_brk st' = g_brk st /\ g_cont st' = g_cont st /\ g_ret st' = g_ret st.
Lemma steady_trans a b c : steady a b -> steady b c -> steady a c.
Proof. intros (? & ? & ?) (? & ? & ?). repeat split; congruence. Qed.
Lemma exits_steady b c st st' l : steady st st' -> exits b c st' l -> exits b c st l.
Proof. intros (? & ? & ?). now apply exits_eq. Qed.
Definition sq (b : bool) (c : bool * bool) (st : gst) (cs : list immc) (st' : gst) : Prop :=
  exists ks, codes ks = cs /\ Forall wf_item ks /\ ok_items (fun n => In n (all_marks ks) \/ exits b c st n) ks (g_next st) (g_next st') /\ cases_in st st' ks /\ default_in st st' ks /\ steady st st' /\ length (g_syms st') = length (g_syms st).

Lemma cases_same st st' ks : g_cases st' = g_cases st -> cases_in st st' ks.
Proof. unfold cases_in. intros ->. destruct (g_cases st); [| exact I]. exists []. split; [now rewrite app_nil_r | intros p []]. Qed.
Lemma cases_trans st st1 st2 a b ks : cases_in st st1 a -> cases_in st1 st2 b -> incl (all_marks a) (all_marks ks) -> incl (all_marks b) (all_marks ks) -> cases_in st st2 ks.
Proof.
  unfold cases_in. intros A B Ia Ib. destruct (g_cases st), (g_cases st1), (g_cases st2); try contradiction; auto. destruct A as (x & -> & X), B as (y & -> & Y). exists (x ++ y). split; [now rewrite app_assoc |].
  intros p J. apply in_app_iff in J as [J | J]; auto.
Qed.
Lemma cases_more st st' a ks : cases_in st st' a -> incl (all_marks a) (all_marks ks) -> cases_in st st' ks.
Proof. intros A Ia. unfold cases_in in *. destruct (g_cases st), (g_cases st'); try contradiction; auto. destruct A as (x & -> & X). exists x. auto. Qed.
Lemma default_more st st' a ks : default_in st st' a -> incl (all_marks a) (all_marks ks) -> default_in st st' ks.
Proof. intros [A | A] Ia; [now left | right; auto]. Qed.
Lemma default_trans st st1 st2 a b ks : default_in st st1 a -> default_in st1 st2 b -> incl (all_marks a) (all_marks ks) -> incl (all_marks b) (all_marks ks) -> default_in st st2 ks.
Proof. intros [A | A] [B | B] Ia Ib; unfold default_in; [left; congruence | right; auto | right; rewrite B; auto | right; auto]. Qed.
Lemma marks_l a b : incl (all_marks a) (all_marks (a ++ b)).
Proof. rewrite flat_map_app. apply incl_appl, incl_refl. Qed.
Lemma marks_r a b : incl (all_marks b) (all_marks (a ++ b)).
Proof. rewrite flat_map_app. apply incl_appr, incl_refl. Qed.

Lemma sq_app b c st st1 st2 c1 c2 : sq b c st c1 st1 -> sq b c st1 c2 st2 -> sq b c st (c1 ++ c2) st2.
Proof.
  intros (a & <- & Wa & Oa & Ca & Da & Sa & La) (d & <- & Wd & Od & Cd & Dd & Sd & Ld). exists (a ++ d). split; [apply codes_app |]. split; [now apply Forall_app |].
  split; [| split; [eapply cases_trans; eauto using marks_l, marks_r | split; [eapply default_trans; eauto using marks_l, marks_r | split; [eapply steady_trans; eassumption | congruence]]]].
  eapply ok_items_app; (eapply ok_items_mono; [| eassumption]); cbn; intros n [H | H].
  - left. now apply marks_l.
  - now right.
  - left. now apply marks_r.
  - right. eapply exits_steady; eassumption.
Qed.
(** states with the same fields that matter *)
Lemma sq_none b c st st' : g_next st' = g_next st -> keep st st' -> sq b c st [] st'.
Proof. intros N ((C & D) & S & L0). exists []. split; [reflexivity |]. split; [constructor |]. split; [rewrite N; constructor |]. split; [now apply cases_same | split; [now left | split; assumption]]. Qed.
Lemma sq_item b c st st' k : wf_item k -> ok_item (fun n => In n (marks k) \/ exits b c st n) k (g_next st) (g_next st') -> keep st st' -> sq b c st (item_code k) st'.
Proof.
  intros W O ((C & D) & S & L0). exists [k]. split; [cbn; apply app_nil_r |]. split; [auto |]. split; [| split; [now apply cases_same | split; [now left | split; assumption]]].
  econstructor; [| constructor]. eapply ok_item_mono; [| exact O]. cbn. intros n. rewrite app_nil_r. auto.
Qed.
Lemma sq_start b c st st1 cs st' : g_next st1 = g_next st -> keep st st1 -> sq b c st1 cs st' -> sq b c st cs st'.
Proof. intros N K H. change cs with ([] ++ cs). eapply sq_app; [apply sq_none; eassumption | exact H]. Qed.
Lemma sq_end b c st cs st1 st' : g_next st' = g_next st1 -> keep st1 st' -> sq b c st cs st1 -> sq b c st cs st'.
Proof. intros N K H. rewrite <- (app_nil_r cs). eapply sq_app; [exact H | apply sq_none; assumption]. Qed.
Lemma sq_deep b c st cs st' d : sq b c st cs st' -> deep d st -> deep d st'.
Proof. intros (ks & _ & _ & _ & _ & _ & _ & E). unfold deep. now rewrite E. Qed.
