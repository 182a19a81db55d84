(** Proofs for C29 *)
From Coq Require Import Permutation FinFun.
From Verif Require AsmSpec AsmProofs.
From Verif Require Import Base AstModel DtypeModel SymtabModel SrtModel ImmcModel ImmcgenModel TypeSpec ElabSpec ElabProofs ElabProofs2 ResolverSpec ResolverProofs LabelSpec.
Local Open Scope Z_scope.

Lemma name_dec : forall a b : name, {a = b} + {a <> b}.
Proof. exact (list_eq_dec Z.eq_dec). Qed.
Definition occ (n : name) (cs : list immc) : nat := count_occ name_dec (labels cs) n.
Notation L := create_label_name.
#[local] Arguments create_label_name : simpl never.
Lemma label_inj i j : L i = L j -> i = j.
Proof.
  unfold create_label_name. intros H. apply app_inv_head in H. assert (E : AsmSpec.read_number (print_signed i) = AsmSpec.read_number (print_signed j)) by now rewrite H.
  rewrite !AsmProofs.read_number_signed in E. congruence.
Qed.
Lemma labels_app a b : labels (a ++ b) = labels a ++ labels b.
Proof. apply flat_map_app. Qed.
Lemma occ_app n a b : occ n (a ++ b) = (occ n a + occ n b)%nat.
Proof. unfold occ. now rewrite labels_app, count_occ_app. Qed.
Lemma occ_nil n : occ n [] = 0%nat.
Proof. reflexivity. Qed.
Lemma occ_cons n c cs : occ n (c :: cs) = (occ n [c] + occ n cs)%nat.
Proof. apply (occ_app n [c]). Qed.
Lemma occ_inst n t d f g : occ n [IMMC_INST t d f g] = 0%nat.
Proof. reflexivity. Qed.
Lemma occ_label i j : occ (L i) [normal_label j] = if Z.eqb i j then 1%nat else 0%nat.
Proof.
  unfold occ, normal_label, new_label_immc_from_id. cbn [labels flat_map label_of app count_occ].
  destruct (name_dec (L j) (L i)) as [E | E]; destruct (Z.eqb_spec i j) as [F | F]; auto.
  - apply label_inj in E. congruence.
  - subst. congruence.
Qed.
Lemma occ_other n j : (forall i, n <> L i) -> occ n [normal_label j] = 0%nat.
Proof. intros H. unfold occ, normal_label, new_label_immc_from_id. cbn [labels flat_map label_of app count_occ]. destruct (name_dec (L j) n); [| reflexivity]. subst. now destruct (H j). Qed.
Lemma occ_in n cs : (1 <= occ n cs)%nat <-> In n (labels cs).
Proof. unfold occ. rewrite (count_occ_In name_dec). lia. Qed.

(** the jumps of [cs] *)
Definition jumps_to (P : name -> Prop) (cs : list immc) : Prop :=
  forall c target, In c cs -> jump c target -> exists l, target = Some (IMMC_OPERAND_LABEL l) /\ P l.
Lemma jumps_app P a b : jumps_to P a -> jumps_to P b -> jumps_to P (a ++ b).
Proof. intros A B c t I. apply in_app_iff in I as [I | I]; [now apply A | now apply B]. Qed.
Lemma jumps_nil P : jumps_to P [].
Proof. intros c t []. Qed.
Lemma jumps_weaken (P Q : name -> Prop) cs : (forall l, P l -> Q l) -> jumps_to P cs -> jumps_to Q cs.
Proof. intros PQ H c t I J. destruct (H c t I J) as (l & ? & ?). eauto. Qed.
Lemma jumps_cons P c cs : jumps_to P [c] -> jumps_to P cs -> jumps_to P (c :: cs).
Proof. apply (jumps_app P [c]). Qed.
Lemma jumps_inst P t d f g : ~ In t jumps -> jumps_to P [IMMC_INST t d f g].
Proof. intros N c x [<- | []] (t' & f' & g' & I & E). injection E as <- <- <- <-. contradiction. Qed.
Lemma jumps_label P t v n : jumps_to P [IMMC_LABEL t v n].
Proof. intros c x [<- | []] (t' & f' & g' & I & E). discriminate. Qed.
Lemma jumps_jump (P : name -> Prop) t l f g : P l -> jumps_to P [IMMC_INST t (Some (IMMC_OPERAND_LABEL l)) f g].
Proof. intros H c x [<- | []] (t' & f' & g' & I & E). injection E as <- <- <- <-. eauto. Qed.

(** code [cs] of a statement, generated from state [st] to [st'] *)
(** where a jump may go: the end of the loop or switch (if [b]), the next iteration (if [fst c]), the end of the function (if [snd c]) *)
Definition exits (b : bool) (c : bool * bool) (st : gst) (l : name) : Prop :=
  b = true /\ l = L (g_brk st) \/ fst c = true /\ l = L (g_cont st) \/ snd c = true /\ l = L (g_ret st).
Definition case_labels (st st' : gst) (cs : list immc) : Prop :=
  match g_cases st, g_cases st' with
  | None, None => True
  | Some l, Some l' => exists new, l' = l ++ new /\ forall p, In p new -> (1 <= occ (L (fst p)) cs)%nat
  | _, _ => False end.
Record lab (b : bool) (c : bool * bool) (st : gst) (cs : list immc) (st' : gst) : Prop := {
  lab_mono : g_label st <= g_label st';
  lab_once : forall i, (occ (L i) cs <= 1)%nat /\ ((1 <= occ (L i) cs)%nat -> g_label st < i <= g_label st');
  lab_other : forall n, (forall i, n <> L i) -> occ n cs = 0%nat;
  lab_inner : forall x, In x cs -> ~ entry x;
  lab_jumps : jumps_to (fun l => (1 <= occ l cs)%nat \/ exits b c st l) cs;
  lab_brk : g_brk st' = g_brk st;
  lab_cont : g_cont st' = g_cont st;
  lab_ret : g_ret st' = g_ret st;
  lab_cases : case_labels st st' cs;
  lab_default : g_default st' = g_default st \/ (1 <= occ (L (g_default st')) cs)%nat;
  lab_depth : length (g_syms st') = length (g_syms st)
}.
Lemma exits_eq b c st st' l : g_brk st' = g_brk st -> g_cont st' = g_cont st -> g_ret st' = g_ret st -> exits b c st' l -> exits b c st l.
Proof. unfold exits. now intros -> -> ->. Qed.
Lemma case_labels_trans st st1 st2 c1 c2 cs : case_labels st st1 c1 -> case_labels st1 st2 c2 -> (forall n, occ n c1 + occ n c2 <= occ n cs)%nat -> case_labels st st2 cs.
Proof.
  unfold case_labels. intros A B O. destruct (g_cases st), (g_cases st1), (g_cases st2); try contradiction; auto.
  destruct A as (x & -> & X), B as (y & -> & Y). exists (x ++ y). split; [now rewrite app_assoc |].
  intros p I. apply in_app_iff in I as [I | I]; [specialize (X p I) | specialize (Y p I)]; specialize (O (L (fst p))); lia.
Qed.
Lemma case_labels_weaken st st' c1 cs : case_labels st st' c1 -> (forall n, occ n c1 <= occ n cs)%nat -> case_labels st st' cs.
Proof.
  unfold case_labels. intros A O. destruct (g_cases st), (g_cases st'); try contradiction; auto. destruct A as (x & -> & X). exists x. split; [reflexivity |].
  intros p I. specialize (X p I). specialize (O (L (fst p))). lia.
Qed.
Lemma lab_app b c st st1 st2 c1 c2 : lab b c st c1 st1 -> lab b c st1 c2 st2 -> lab b c st (c1 ++ c2) st2.
Proof.
  intros [A1 A2 A3 A4 A5 A6 A7 A8 A9 A10 A11] [B1 B2 B3 B4 B5 B6 B7 B8 B9 B10 B11]. split; try congruence; try lia.
  - intros i. rewrite occ_app. specialize (A2 i). specialize (B2 i). lia.
  - intros n N. now rewrite occ_app, A3, B3.
  - intros x I. apply in_app_iff in I as [I | I]; auto.
  - apply jumps_app; [eapply jumps_weaken; [| exact A5] | eapply jumps_weaken; [| exact B5]]; intros l; rewrite occ_app.
    + intros [H | H]; [left; lia | right; exact H].
    + intros [H | H]; [left; lia | right]. eapply exits_eq; [| | | exact H]; assumption.
  - eapply case_labels_trans; [eassumption .. |]. intros n. rewrite occ_app. lia.
  - rewrite occ_app. destruct A10 as [A | A]; destruct B10 as [B | B]; try (right; lia); [left; congruence |]. right. rewrite B. lia.
Qed.

(** states that differ in other fields only *)
Definition same (st st' : gst) : Prop :=
  g_label st' = g_label st /\ g_brk st' = g_brk st /\ g_cont st' = g_cont st /\ g_ret st' = g_ret st /\ g_cases st' = g_cases st
  /\ g_default st' = g_default st /\ length (g_syms st') = length (g_syms st).
Lemma same_refl st : same st st.
Proof. now repeat split. Qed.
Lemma same_trans a b c : same a b -> same b c -> same a c.
Proof. intros (? & ? & ? & ? & ? & ? & ?) (? & ? & ? & ? & ? & ? & ?). repeat split; congruence. Qed.
Definition plain (c : immc) : Prop := match c with IMMC_INST t _ _ _ => ~ In t jumps | IMMC_LABEL _ _ _ => False | _ => True end.
Lemma occ_plain n cs : Forall plain cs -> occ n cs = 0%nat.
Proof. induction 1 as [| c cs P _ IH]; [reflexivity |]. rewrite occ_cons, IH. destruct c; try reflexivity. contradiction. Qed.
Lemma jumps_plain P cs : Forall plain cs -> jumps_to P cs.
Proof.
  intros F c t I (t' & f & g & J & ->). rewrite Forall_forall in F. apply F in I. contradiction.
Qed.
Lemma case_labels_same st st' cs : g_cases st' = g_cases st -> case_labels st st' cs.
Proof. unfold case_labels. intros ->. destruct (g_cases st); [| exact I]. exists []. split; [now rewrite app_nil_r | intros p []]. Qed.
Lemma lab_plain b c st st' cs : Forall plain cs -> same st st' -> lab b c st cs st'.
Proof.
  intros F (A1 & A2 & A3 & A4 & A5 & A6 & A7). split; auto; try lia.
  - intros i. rewrite occ_plain by assumption. lia.
  - intros n _. now apply occ_plain.
  - intros x I (v & n & [-> | ->]); rewrite Forall_forall in F; exact (F _ I).
  - now apply jumps_plain.
  - now apply case_labels_same.
Qed.
Lemma lab_same_l b c st st1 st2 cs : same st st1 -> lab b c st1 cs st2 -> lab b c st cs st2.
Proof. intros S H. apply (lab_app b c st st1 st2 [] cs); [now apply lab_plain | assumption]. Qed.
Lemma lab_same_r b c st st1 st2 cs : lab b c st cs st1 -> same st1 st2 -> lab b c st cs st2.
Proof. intros H S. rewrite <- (app_nil_r cs). eapply lab_app; [eassumption |]. now apply lab_plain. Qed.
Lemma lab_end b c st st1 st2 cs l : lab b c st cs st1 -> Forall plain l -> same st1 st2 -> lab b c st (cs ++ l) st2.
Proof. intros H F S. eapply lab_app; [eassumption |]. now apply lab_plain. Qed.
Lemma update_same dst st st' : update_non_void_expr_register dst st = Ok st' -> same st st'.
Proof. unfold update_non_void_expr_register. intros H. apply bind_ok in H as (r & _ & H). injection H as <-. now repeat split. Qed.
Lemma dest_same s st o st' : create_dest_reg s st = Ok (o, st') -> same st st'.
Proof. unfold create_dest_reg, next_reg. intros H. apply bind_ok in H as (d & _ & H). cbv beta zeta in H. injection H as _ <-. now repeat split. Qed.

(** statements in the places where they are accepted *)
Fixpoint inside (b : bool) (c : bool * bool) (sw : bool) (s : srt) : Prop :=
  let 'Srt t _ _ cs := s in
  match t with
  | SRT_FUNC_DEF => False
  | SRT_BREAK_STMT => b = true
  | SRT_CONTINUE_STMT => fst c = true
  | SRT_INIT_DECL | SRT_RET_STMT => snd c = true /\ fold_right and True (List.map (inside b c sw) cs)
  | SRT_CASE_STMT | SRT_DEFAULT_STMT => sw = true /\ fold_right and True (List.map (inside b c sw) cs)
  | SRT_WHILE_STMT => match cs with [e; body] => inside b c sw e /\ inside true (true, snd c) sw body | _ => False end
  | SRT_SWITCH_STMT => match cs with [e; body] => inside b c sw e /\ inside true c true body | _ => False end
  | SRT_CALL_EXPR => fold_right and True (List.map (inside b c sw) cs) /\ match cs with [_; Srt SRT_ARG_LIST _ _ _] => True | _ => False end
  | SRT_FOR_STMT => match cs with
      | [i; e; u; body] => inside b c sw i /\ inside b c sw e /\ inside b c sw u /\ inside true (true, snd c) sw body
      | _ => False end
  | _ => fold_right and True (List.map (inside b c sw) cs)
  end.
Lemma inside_all P (cs : list srt) : fold_right and True (List.map P cs) <-> Forall P cs.
Proof. induction cs as [| x cs IH]; cbn; [split; [constructor | constructor] |]. rewrite IH. split; [intros []; now constructor | now inversion 1]. Qed.
Definition transparent (t : srttype) : bool :=
  match t with
  | SRT_FUNC_DEF | SRT_BREAK_STMT | SRT_CONTINUE_STMT | SRT_CASE_STMT | SRT_DEFAULT_STMT | SRT_WHILE_STMT | SRT_SWITCH_STMT | SRT_FOR_STMT | SRT_INIT_DECL | SRT_RET_STMT => false
  | _ => true end.
Lemma inside_child b c sw s x : inside b c sw s -> transparent (srt_type s) = true -> In x (srt_children s) -> inside b c sw x.
Proof.
  destruct s as [t d p cs]. cbn [srt_type srt_children]. intros H T I. assert (F : Forall (inside b c sw) cs) by (apply inside_all; destruct t; try discriminate; try exact H; apply H).
  rewrite Forall_forall in F. auto.
Qed.
Lemma child_in s i x : gchild s i = Ok x -> In x (srt_children s).
Proof. unfold gchild. intros H. apply deref_ok in H. eapply nth_error_In. eassumption. Qed.

Definition deep (c : bool * bool) (st : gst) : Prop := snd c = true -> (2 <= length (g_syms st))%nat.
Definition kids (b : bool) (c : bool * bool) (sw : bool) (s : srt) : Prop := forall x, In x (srt_children s) -> inside b c sw x.
Lemma deep_local c st : deep c st -> snd c = true -> is_global st = false.
Proof. unfold deep, is_global. intros D E. specialize (D E). apply Nat.eqb_neq. lia. Qed.
Lemma same_deep c st st' : same st st' -> deep c st -> deep c st'.
Proof. intros (_ & _ & _ & _ & _ & _ & E). unfold deep. now rewrite E. Qed.
Lemma lab_deep b c st cs st' : lab b c st cs st' -> deep c st -> deep c st'.
Proof. intros H. unfold deep. now rewrite (lab_depth _ _ _ _ _ H). Qed.
Lemma kids_inside b c sw s : inside b c sw s -> transparent (srt_type s) = true -> kids b c sw s.
Proof. intros H T x I. eapply inside_child; eauto. Qed.
Lemma kids_child b c sw s i x : kids b c sw s -> gchild s i = Ok x -> inside b c sw x.
Proof. intros K E. apply K. eapply child_in. eassumption. Qed.
Lemma strip_inside b c sw : forall s e, inside b c sw s -> strip_casts s = Ok e -> inside b c sw e.
Proof.
  fix IH 1. intros [t d p cs] e I H. destruct t; cbn [strip_casts] in H; try (injection H as <-; exact I).
  destruct cs as [| x cs]; [discriminate H |]. cbn in I. eapply IH; [| exact H]. apply I.
Qed.

Ltac ginv H :=
  repeat match type of H with
  | bind _ _ = Ok _ => let x := fresh "x" in let M := fresh "M" in apply bind_ok in H as (x & M & H); cbv beta in H
  | (let 'pair _ _ := ?x in _) = _ => is_var x; destruct x
  end; cbv beta iota in H.

(** code before a conditional jump *)
Definition condition (b : bool) (c : bool * bool) (st : gst) (cs : list immc) (l : ope) (st' : gst) : Prop :=
  exists c0 t f g, cs = c0 ++ [IMMC_INST t (Some l) f g] /\ In t jumps /\ lab b c st c0 st'.

Section Lab.
Variable gen : option dtype -> srt -> gst -> gres.
Hypothesis G : forall b c sw od s st cs st', inside b c sw s -> deep c st -> gen od s st = Ok (cs, st') -> lab b c st cs st'.

Ltac mono := unfold inst2, inst3, next_reg in *; cbv zeta in *.
Ltac plains := repeat (apply Forall_cons || apply Forall_nil); cbn; try (intros [|[|[|[|[|[|[|[]]]]]]]]; discriminate); auto.
Ltac sames := first [ apply same_refl | eassumption | solve [repeat split] | eapply same_trans; [eassumption |]; sames ].
Ltac chain :=
  cbn [app];
  match goal with
  | |- lab _ _ ?st _ ?st => first [apply lab_plain; [solve [plains] | apply same_refl]]
  | H : lab _ _ ?st ?c ?st1 |- lab _ _ ?st (?c ++ _) _ => apply (lab_app _ _ _ _ _ _ _ H); chain
  | H : lab _ _ ?st ?c ?st1 |- lab _ _ ?st ?c _ => apply (lab_same_r _ _ _ _ _ _ H); sames
  | H : same ?st ?st1 |- lab _ _ ?st _ _ => apply (lab_same_l _ _ _ _ _ _ H); clear H; chain
  | _ => apply lab_plain; [solve [plains] | sames]
  end.
Ltac deeps := solve [eauto 20 using lab_deep, same_deep].

Lemma lab_child b c sw s i st cs st' : kids b c sw s -> deep c st -> append_child gen s i st = Ok (cs, st') -> lab b c st cs st'.
Proof. unfold append_child. intros K D H. ginv H. eapply G; [| eassumption | exact H]. eapply kids_child; eauto. Qed.
Lemma lab_list b c sw : forall l st cs st', Forall (inside b c sw) l -> deep c st -> append_list gen l st = Ok (cs, st') -> lab b c st cs st'.
Proof.
  induction l as [| x l IH]; intros st cs st' F D H; cbn in H; [injection H as <- <-; apply lab_plain; [constructor | apply same_refl] |].
  ginv H. inversion F; subst. injection H as <- <-. assert (A := G _ _ _ _ _ _ _ _ H2 D M).
  eapply lab_app; [exact A |]. eapply IH; [assumption | | exact M0]. deeps.
Qed.
Lemma lab_int b c sw s i st cs o st' : kids b c sw s -> deep c st -> gen_child_int gen s i st = Ok (cs, o, st') -> lab b c st cs st'.
Proof.
  unfold gen_child_int. intros K D H. mono. ginv H. assert (I : inside b c sw x) by (eapply kids_child; eauto).
  assert (I1 : inside b c sw x1) by (eapply strip_inside; eauto). destruct (srt_is x1 SRT_ILITERAL_EXPR).
  - ginv H. injection H as <- _ <-. chain.
  - ginv H. assert (A := G _ _ _ _ _ _ _ _ I1 D M2). destruct x0 as [d |]; injection H as <- _ <-; chain.
Qed.
Lemma lab_reg b c sw s i st cs o st' : kids b c sw s -> deep c st -> gen_child_reg gen s i st = Ok (cs, o, st') -> lab b c st cs st'.
Proof.
  unfold gen_child_reg. intros K D H. mono. ginv H. assert (A := lab_int _ _ _ _ _ _ _ _ _ K D M).
  destruct o0; try discriminate H; injection H as <- _ <-; chain.
Qed.
Lemma lab_ptr b c sw s i st cs o st' : kids b c sw s -> deep c st -> gen_child_ptr gen s i st = Ok (cs, o, st') -> lab b c st cs st'.
Proof.
  unfold gen_child_ptr. intros K D H. ginv H. assert (I : inside b c sw x) by (eapply kids_child; eauto).
  destruct x0; ginv H.
  - injection H as <- _ <-. chain.
  - injection H as <- _ <-. assert (A := G _ _ _ _ _ _ _ _ I D M1). chain.
Qed.
Ltac known :=
  repeat match goal with
  | M : gen_child_int gen _ _ ?st = Ok (_, _, _) |- _ => eapply lab_int in M; [| eassumption | deeps]
  | M : gen_child_reg gen _ _ ?st = Ok (_, _, _) |- _ => eapply lab_reg in M; [| eassumption | deeps]
  | M : gen_child_ptr gen _ _ ?st = Ok (_, _, _) |- _ => eapply lab_ptr in M; [| eassumption | deeps]
  | M : append_child gen _ _ ?st = Ok (_, _) |- _ => eapply lab_child in M; [| eassumption | deeps]
  | M : update_non_void_expr_register _ _ = Ok _ |- _ => apply update_same in M
  | M : create_dest_reg _ _ = Ok (_, _) |- _ => apply dest_same in M
  end.
Lemma lab_jmp_cond b c sw s i t st cs j st' : kids b c sw s -> deep c st -> gen_jmp_cond gen s i t st = Ok (cs, j, st') ->
  lab b c st cs st' /\ exists t f g, In t jumps /\ forall l, j l = IMMC_INST t (Some l) f g.
Proof.
  unfold gen_jmp_cond. intros K D H. ginv H. assert (I : inside b c sw x) by (eapply kids_child; eauto).
  destruct (get_cjmp_inst_type (srt_type x) t) as [t' |] eqn:T.
  - ginv H. injection H as <- <- <-. assert (K1 : kids b c sw x) by (apply kids_inside; [exact I | destruct (srt_type x); try discriminate T; reflexivity]).
    known. split; [chain |]. unfold inst3. eexists _, _, _. split; [| intros ?; reflexivity].
    destruct (srt_type x); try discriminate T; destruct t; injection T as <-; cbn; tauto.
  - ginv H. injection H as <- <- <-. known. split; [chain |]. unfold inst3. eexists _, _, _. split; [| intros ?; reflexivity]. destruct t; cbn; tauto.
Qed.
Lemma lab_append_jmp b c sw s i t l st cs st' : kids b c sw s -> deep c st -> append_jmp gen s i t l st = Ok (cs, st') ->
  condition b c st cs (new_label_immcope_from_id l) st'.
Proof.
  unfold append_jmp. intros K D H. ginv H. injection H as <- <-. apply (lab_jmp_cond _ _ _ _ _ _ _ _ _ _ K D) in M as (A & t' & f & h & J & E).
  exists l0, t', f, h. rewrite E. auto.
Qed.

(** ** expressions *)
Ltac start H := intros K D H; mono; ginv H; known; injection H as <- <-; try chain.
Lemma lab_assignment b c sw s st cs st' : kids b c sw s -> deep c st -> gen_assignment_expr gen s st = Ok (cs, st') -> lab b c st cs st'.
Proof. unfold gen_assignment_expr. start H. Qed.
Lemma lab_binary b c sw t s st cs st' : ~ In t jumps -> kids b c sw s -> deep c st -> gen_binary_expr gen t s st = Ok (cs, st') -> lab b c st cs st'.
Proof. unfold gen_binary_expr. intros N. start H. Qed.
Lemma lab_pointer_additive b c sw t s st cs st' : ~ In t jumps -> kids b c sw s -> deep c st -> gen_pointer_additive_expr gen t s st = Ok (cs, st') -> lab b c st cs st'.
Proof. unfold gen_pointer_additive_expr. intros N. start H. Qed.
Lemma lab_pointer_diff b c sw s st cs st' : kids b c sw s -> deep c st -> gen_pointer_diff_expr gen s st = Ok (cs, st') -> lab b c st cs st'.
Proof. unfold gen_pointer_diff_expr. start H. Qed.
Lemma lab_tomember_address b c sw a s st cs st' : kids b c sw s -> deep c st -> gen_tomember_address_expr gen a s st = Ok (cs, st') -> lab b c st cs st'.
Proof. unfold gen_tomember_address_expr. start H. Qed.
Lemma lab_address b c sw s st cs st' : kids b c sw s -> deep c st -> gen_address_expr gen s st = Ok (cs, st') -> lab b c st cs st'.
Proof.
  unfold gen_address_expr. intros K D H. mono. ginv H. assert (I : inside b c sw x) by (eapply kids_child; eauto).
  destruct (srt_type x) eqn:T; try discriminate H.
  - assert (K1 : kids b c sw x) by (apply kids_inside; [exact I | now rewrite T]). known. exact H.
  - eapply lab_tomember_address; [| eassumption | exact H]. apply kids_inside; [exact I | now rewrite T].
  - unfold gen_identifier_address_expr in H. mono. ginv H. known. injection H as <- <-. chain.
  - unfold gen_string_address_expr in H. mono. ginv H. known. injection H as <- <-. chain.
Qed.
Lemma lab_indirection b c sw s st cs st' : kids b c sw s -> deep c st -> gen_indirection_expr gen s st = Ok (cs, st') -> lab b c st cs st'.
Proof. unfold gen_indirection_expr. start H. Qed.
Lemma lab_positive b c sw s st cs st' : kids b c sw s -> deep c st -> gen_positive_expr gen s st = Ok (cs, st') -> lab b c st cs st'.
Proof. unfold gen_positive_expr. start H. Qed.
Lemma lab_neg_not b c sw t s st cs st' : ~ In t jumps -> kids b c sw s -> deep c st -> gen_neg_not_expr gen t s st = Ok (cs, st') -> lab b c st cs st'.
Proof. unfold gen_neg_not_expr. intros N. start H. Qed.
Lemma lab_logical_not b c sw s st cs st' : kids b c sw s -> deep c st -> gen_logical_not_expr gen s st = Ok (cs, st') -> lab b c st cs st'.
Proof. unfold gen_logical_not_expr. start H. Qed.
Lemma lab_args b c sw p : kids b c sw p -> forall n st cs st', deep c st -> gen_args gen p n st = Ok (cs, st') -> lab b c st cs st'.
Proof.
  intros K. induction n as [| i IH]; intros st cs st' D H; cbn in H; mono; [injection H as <- <-; chain |].
  ginv H. known. injection H as <- <-. apply IH in M0; [| deeps]. eapply lab_app; [exact M |].
  change (?x :: ?l0) with ([x] ++ l0). eapply lab_app; [| exact M0]. chain.
Qed.
Lemma lab_call b c sw s st cs st' : srt_type s = SRT_CALL_EXPR -> inside b c sw s -> deep c st -> gen_call_expr gen s st = Ok (cs, st') -> lab b c st cs st'.
Proof.
  unfold gen_call_expr. intros T I D H. mono. apply bind_ok in H as (p & M & H). cbv zeta in H. ginv H. injection H as <- <-.
  assert (K : kids b c sw s) by (apply kids_inside; [exact I | now rewrite T]).
  assert (I1 : inside b c sw p) by (eapply kids_child; eauto).
  assert (T1 : srt_type p = SRT_ARG_LIST).
  { destruct s as [t d0 pl ss]. cbn in T. subst t. cbn in I. destruct I as [_ I]. destruct ss as [| f [| a [| z ss]]]; try contradiction; destruct a as [t ? ? ?]; destruct t; try contradiction.
    cbn in M. injection M as <-. reflexivity. }
  assert (K1 : kids b c sw p) by (apply kids_inside; [exact I1 | now rewrite T1]).
  apply (lab_args _ _ _ _ K1 _ _ _ _ D) in M0. known.
  assert (S : same g0 x0).
  { assert (S : same g0 g1). { destruct (is_void x); [injection M3 as _ <-; apply same_refl |]. ginv M3. known. injection M3 as _ <-. assumption. }
    eapply same_trans; [exact S |]. destruct o0; [known; exact M4 | injection M4 as <-; repeat split]. }
  change (?x :: ?l) with ([x] ++ l). eapply lab_app; [apply lab_plain; [plains | apply same_refl] |]. clear M3 M4.
  eapply lab_app; [exact M0 |]. eapply lab_app; [exact M1 |]. apply lab_plain; [plains | exact S].
Qed.
Lemma lab_tomember b c sw s st cs st' : kids b c sw s -> deep c st -> gen_tomember_expr gen s st = Ok (cs, st') -> lab b c st cs st'.
Proof. unfold gen_tomember_expr. intros K D H. mono. ginv H. apply (lab_tomember_address _ _ _ _ _ _ _ _ K D) in M0. known. injection H as <- <-. chain. Qed.
Lemma lab_incdec b c sw s st cs st' : kids b c sw s -> deep c st -> gen_incdec_expr gen s st = Ok (cs, st') -> lab b c st cs st'.
Proof.
  unfold gen_incdec_expr. intros K D H. mono. ginv H. cbv zeta in H. known. destruct (srt_type s); try discriminate H; ginv H; known; injection H as <- <-; chain.
Qed.
Lemma lab_primary b c s st cs st' : gen_primary_expr s st = Ok (cs, st') -> lab b c st cs st'.
Proof. unfold gen_primary_expr. intros H. mono. ginv H. known. injection H as <- <-. chain. Qed.

(** ** labels and jumps *)
Record labx (X : name -> Prop) (lo hi : Z) (cs : list immc) : Prop := {
  x_mono : lo <= hi;
  x_once : forall i, (occ (L i) cs <= 1)%nat /\ ((1 <= occ (L i) cs)%nat -> lo < i <= hi);
  x_other : forall n, (forall i, n <> L i) -> occ n cs = 0%nat;
  x_inner : forall x, In x cs -> ~ entry x;
  x_jumps : jumps_to (fun l => (1 <= occ l cs)%nat \/ X l) cs
}.
Lemma labx_lab (X : name -> Prop) b c st cs st' lo hi : lab b c st cs st' -> lo = g_label st -> hi = g_label st' -> (forall l, exits b c st l -> X l) -> labx X lo hi cs.
Proof.
  intros [A1 A2 A3 A4 A5 A6 A7 A8 A9 A10 A11] -> -> E. split; auto. eapply jumps_weaken; [| exact A5]. intros l [I | I]; auto.
Qed.
Lemma labx_app X lo mid hi c1 c2 : labx X lo mid c1 -> labx X mid hi c2 -> labx X lo hi (c1 ++ c2).
Proof.
  intros [A1 A2 A3 A4 A5] [B1 B2 B3 B4 B5]. split; try lia.
  - intros i. rewrite occ_app. specialize (A2 i). specialize (B2 i). lia.
  - intros n N. now rewrite occ_app, A3, B3.
  - intros x I. apply in_app_iff in I as [I | I]; auto.
  - apply jumps_app; [eapply jumps_weaken; [| exact A5] | eapply jumps_weaken; [| exact B5]]; intros l; rewrite occ_app; (intros [H | H]; [left; lia | right; exact H]).
Qed.
Lemma labx_nil X lo : labx X lo lo [].
Proof.
  split; [lia | | | intros x [] | apply jumps_nil].
  - intros i. rewrite occ_nil. lia.
  - intros n _. apply occ_nil.
Qed.
Lemma occ_permutation n a b : Permutation a b -> occ n a = occ n b.
Proof.
  induction 1 as [| x a b _ IH | x y a | a b d _ IH1 _ IH2]; [reflexivity | | | congruence].
  - rewrite (occ_cons n x a), (occ_cons n x b). lia.
  - rewrite (occ_cons n y (x :: a)), (occ_cons n x a), (occ_cons n x (y :: a)), (occ_cons n y a). lia.
Qed.
Lemma occ_ids n glue ids : labels glue = List.map L ids -> NoDup ids -> (forall i, n = L i -> (occ n glue <= 1)%nat /\ ((1 <= occ n glue)%nat -> In i ids)) /\ ((forall i, n <> L i) -> occ n glue = 0%nat).
Proof.
  intros E N. unfold occ. rewrite E. split.
  - intros i ->. split.
    + assert (NoDup (List.map L ids)) by (apply FinFun.Injective_map_NoDup; [exact label_inj | exact N]). now apply NoDup_count_occ.
    + intros H. apply (count_occ_In name_dec) in H. apply in_map_iff in H as (j & F & I). apply label_inj in F. now subst.
  - intros F. apply count_occ_not_In. intros I. apply in_map_iff in I as (j & H & _). now apply (F j).
Qed.
Lemma lab_frame X b c st st' lo hi body glue ids full : labx X lo hi body ->
  g_label st <= lo -> g_label st' = hi -> Permutation (body ++ glue) full -> labels glue = List.map L ids -> NoDup ids ->
  (forall i, In i ids -> g_label st < i <= lo) -> (forall x, In x glue -> ~ entry x) ->
  jumps_to (fun l => (1 <= occ l (body ++ glue))%nat \/ exits b c st l) glue ->
  (forall l, X l -> In l (labels glue) \/ exits b c st l) ->
  g_brk st' = g_brk st -> g_cont st' = g_cont st -> g_ret st' = g_ret st -> case_labels st st' (body ++ glue) ->
  g_default st' = g_default st \/ (1 <= occ (L (g_default st')) (body ++ glue))%nat ->
  length (g_syms st') = length (g_syms st) -> lab b c st full st'.
Proof.
  intros [A1 A2 A3 A4 A5] B1 B2 P B3 B4 B5 B6 B7 B8 C1 C2 C3 C4 C5 C6.
  assert (O : forall n, occ n full = (occ n body + occ n glue)%nat) by (intros n; now rewrite <- (occ_permutation n _ _ P), occ_app).
  split; auto; try lia.
  - intros i. rewrite O. specialize (A2 i). destruct (occ_ids (L i) glue ids B3 B4) as [Q _]. destruct (Q i eq_refl) as [Q1 Q2]. specialize (B5 i).
    destruct (Nat.eq_dec (occ (L i) glue) 0) as [Z | Z]; [lia |]. assert (In i ids) by (apply Q2; lia). specialize (B5 H). lia.
  - intros n N. rewrite O, A3 by assumption. now apply (occ_ids n glue ids B3 B4).
  - intros x I. apply (Permutation_in _ (Permutation_sym P)) in I. apply in_app_iff in I as [I | I]; auto.
  - intros x t I J. apply (Permutation_in _ (Permutation_sym P)) in I. apply in_app_iff in I as [I | I].
    + destruct (A5 x t I J) as (l & -> & [F | F]); exists l; (split; [reflexivity |]); [left; rewrite O; lia |].
      destruct (B8 l F) as [F1 | F1]; [| auto]. left. rewrite O. apply occ_in in F1. lia.
    + destruct (B7 x t I J) as (l & -> & [F | F]); exists l; (split; [reflexivity |]); [left | auto]. rewrite occ_app in F. now rewrite O.
  - eapply case_labels_weaken; [exact C4 |]. intros n. now rewrite O, occ_app.
  - rewrite O. rewrite occ_app in C5. exact C5.
Qed.
Lemma conditional_lab b c st cs l st' : condition b c st cs l st' -> exists c0 j, cs = c0 ++ [j] /\ lab b c st c0 st' /\ label_of j = [] /\ ~ entry j /\
  (forall target, jump j target -> target = Some l).
Proof.
  intros (c0 & t & f & g & -> & _ & A). exists c0, (IMMC_INST t (Some l) f g). splits; auto.
  - intros (v & n & [E | E]); discriminate E.
  - intros target (t' & f' & g' & _ & E). now injection E as _ <- _ _.
Qed.
(** moving the glue to the end *)
Lemma perm_step {A} (c x y z : list A) : Permutation (x ++ y) z -> Permutation ((c ++ x) ++ y) (c ++ z).
Proof. intros H. rewrite <- app_assoc. now apply Permutation_app_head. Qed.
Lemma perm_glue {A} (g : A) (x y z : list A) : Permutation (x ++ y) z -> Permutation (x ++ g :: y) (g :: z).
Proof. intros H. rewrite <- Permutation_middle. now constructor. Qed.
Lemma perm_last {A} (c y z : list A) : Permutation y z -> Permutation (c ++ y) (c ++ z).
Proof. apply Permutation_app_head. Qed.
Lemma perm_glues {A} (g x y z : list A) : Permutation (x ++ y) z -> Permutation (x ++ g ++ y) (g ++ z).
Proof. intros H. rewrite Permutation_app_swap_app. now apply Permutation_app_head. Qed.
Lemma perm_nil {A} : Permutation (@nil A ++ []) [].
Proof. constructor. Qed.
Ltac perms := repeat first [apply perm_nil | apply perm_glue | apply perm_step].
Lemma glue_here body glue ids i : labels glue = List.map L ids -> In i ids -> (1 <= occ (L i) (body ++ glue))%nat.
Proof. intros E I. rewrite occ_app. assert (1 <= occ (L i) glue)%nat by (apply occ_in; rewrite E; now apply in_map). lia. Qed.
Lemma jumps_target (P : name -> Prop) j i : (forall target, jump j target -> target = Some (new_label_immcope_from_id i)) -> P (L i) -> jumps_to P [j].
Proof. intros H Q c t [<- | []] J. rewrite (H t J). eexists. split; [reflexivity | exact Q]. Qed.
Ltac glue_labels := unfold labels; cbn [flat_map label_of app normal_label jmp_to new_label_immc_from_id inst2 inst3];
  repeat match goal with J : label_of ?j = [] |- _ => rewrite J; clear J end; reflexivity.
Ltac glue_nodup := repeat (apply NoDup_cons; [cbn; lia |]); apply NoDup_nil.
Ltac glue_range := let i := fresh in let I := fresh in intros i I; cbn [In] in I; cbn in *; lia.
Ltac glue_inner := let x := fresh in let I := fresh in intros x I; cbn [In] in I; repeat (destruct I as [<- | I]); [.. | contradiction];
  first [assumption | intros (? & ? & [? | ?]); discriminate].
Ltac glue_jumps :=
  let P := fresh "P" in intros P; intros;
  repeat match goal with |- jumps_to _ (_ :: _ :: _) => apply jumps_cons end;
  lazymatch goal with
  | J : forall target, jump ?j target -> _ |- jumps_to _ [?j] => apply (jumps_target _ _ _ J); assumption
  | |- jumps_to _ [jmp_to _] => apply jumps_jump; assumption
  | |- jumps_to _ [normal_label _] => apply jumps_label
  | |- jumps_to _ [_] => apply jumps_inst; intros [|[|[|[|[|[|[|[]]]]]]]]; discriminate
  end.

Lemma lab_conditional b c sw s st cs st' : kids b c sw s -> deep c st -> gen_conditional_expr gen s st = Ok (cs, st') -> lab b c st cs st'.
Proof.
  unfold gen_conditional_expr. intros K D H. unfold next_label in H. cbv zeta in H. mono. ginv H. injection H as <- <-.
  eapply lab_append_jmp in M; [| exact K | exact D]. apply conditional_lab in M as (c0 & j & -> & A & J1 & J2 & J3). known. cbn [g_label gset_label] in *.
  rewrite <- ?app_assoc. cbn [app].
  set (glue := [j; IMMC_INST IMMC_INST_LOAD (Some o) (Some o0) None; jmp_to (g_label st + 1 + 1); normal_label (g_label st + 1); IMMC_INST IMMC_INST_LOAD (Some o) (Some o1) None; normal_label (g_label st + 1 + 1)]).
  assert (E : labels glue = List.map L [g_label st + 1; g_label st + 1 + 1]) by (subst glue; glue_labels).
  assert (JJ : forall P : name -> Prop, P (L (g_label st + 1)) -> P (L (g_label st + 1 + 1)) -> jumps_to P glue) by (subst glue; glue_jumps).
  assert (W : lab b c (gset_label (g_label st + 1 + 1) st) (c0 ++ l0 ++ l1 ++ []) x).
  { eapply lab_app; [exact A |]. eapply lab_same_l; [exact M0 |]. eapply lab_app; [exact M1 |]. eapply lab_app; [exact M2 |]. apply lab_plain; [constructor | exact M3]. }
  eapply (lab_frame (exits b c st) b c st x _ _ _ glue _ _ (labx_lab _ _ _ _ _ _ _ _ W eq_refl eq_refl (fun l H => H))); [cbn; lia | reflexivity | perms | exact E | glue_nodup | glue_range | glue_inner | apply JJ; left; apply (glue_here _ _ _ _ E); cbn; auto | auto | ..].
  all: destruct W as [W1 W2 W3 W4 W5 W6 W7 W8 W9 W10 W11]; auto.
  - eapply case_labels_weaken; [exact W9 |]. intros n. rewrite (occ_app n _ glue). lia.
  - destruct W10 as [W10 | W10]; [auto | right]. rewrite (occ_app _ _ glue). lia.
Qed.
Lemma lab_logical b c sw or s st cs st' : kids b c sw s -> deep c st -> gen_logical_expr gen or s st = Ok (cs, st') -> lab b c st cs st'.
Proof.
  unfold gen_logical_expr. intros K D H. unfold next_label in H. cbv zeta in H. mono. ginv H. injection H as <- <-.
  eapply lab_append_jmp in M; [| exact K | exact D]. apply conditional_lab in M as (c0 & j & -> & A & J1 & J2 & J3).
  eapply lab_append_jmp in M0; [| exact K | deeps]. apply conditional_lab in M0 as (c1 & j' & -> & A' & J1' & J2' & J3'). known. cbn [g_label gset_label] in *.
  rewrite <- ?app_assoc. cbn [app].
  match goal with |- lab _ _ _ (_ ++ _ :: _ ++ ?g) _ => set (tail := g) end. cbn [app]. subst tail.
  set (glue := j :: j' :: [inst2 IMMC_INST_LOAD o (new_signed_int_immcope (ope_suffix o) IInt (if negb or then 1 else 0)); jmp_to (g_label st + 1 + 1);
             normal_label (g_label st + 1); inst2 IMMC_INST_LOAD o (new_signed_int_immcope (ope_suffix o) IInt (if or then 1 else 0)); normal_label (g_label st + 1 + 1)]).
  assert (E : labels glue = List.map L [g_label st + 1; g_label st + 1 + 1]) by (subst glue; glue_labels).
  assert (JJ : forall P : name -> Prop, P (L (g_label st + 1)) -> P (L (g_label st + 1 + 1)) -> jumps_to P glue) by (subst glue; glue_jumps).
  assert (W : lab b c (gset_label (g_label st + 1 + 1) st) (c0 ++ c1 ++ []) x).
  { eapply lab_app; [exact A |]. eapply lab_app; [exact A' |]. apply lab_plain; [constructor | sames]. }
  eapply (lab_frame (exits b c st) b c st x _ _ _ glue _ _ (labx_lab _ _ _ _ _ _ _ _ W eq_refl eq_refl (fun l H => H))); [cbn; lia | reflexivity | perms | exact E | glue_nodup | glue_range | glue_inner | apply JJ; left; apply (glue_here _ _ _ _ E); cbn; auto | auto | ..].
  all: destruct W as [W1 W2 W3 W4 W5 W6 W7 W8 W9 W10 W11]; auto.
  - eapply case_labels_weaken; [exact W9 |]. intros n. rewrite (occ_app n _ glue). lia.
  - destruct W10 as [W10 | W10]; [auto | right]. rewrite (occ_app _ _ glue). lia.
Qed.

(** ** statements *)
Lemma lab_jmp b c st i : exits b c st (L i) -> lab b c st [jmp_to i] st.
Proof.
  intros E. split; auto; try lia.
  - intros k. unfold jmp_to. rewrite occ_inst. lia.
  - intros x [<- | []] (v & n & [N | N]); discriminate N.
  - apply jumps_jump. now right.
  - now apply case_labels_same.
Qed.
Lemma lab_return b c sw s st cs st' : snd c = true -> kids b c sw s -> deep c st -> gen_return_stmt gen s st = Ok (cs, st') -> lab b c st cs st'.
Proof.
  unfold gen_return_stmt. intros S K D H. ginv H. injection H as <- <-.
  assert (A : lab b c st l g). { destruct (srt_children s); [injection M as <- <-; apply lab_plain; [constructor | apply same_refl] |]. ginv M. known. injection M as <- <-. chain. }
  eapply lab_app; [exact A |]. apply lab_jmp. right. right. auto.
Qed.
Lemma lab_expression b c sw s st cs st' : kids b c sw s -> deep c st -> gen_expression_stmt gen s st = Ok (cs, st') -> lab b c st cs st'.
Proof. unfold gen_expression_stmt. intros K D H. eapply lab_child in H; [| exact K | exact D]. eapply lab_same_l; [| exact H]. now repeat split. Qed.
Lemma lab_case b c sw s st cs st' : kids b c sw s -> deep c st -> gen_case_stmt gen s st = Ok (cs, st') -> lab b c st cs st'.
Proof.
  unfold gen_case_stmt. intros K D H. unfold next_label in H. ginv H. cbv zeta in H. ginv H. injection H as <- <-. cbn [g_label gset_label g_cases] in *.
  eapply lab_child in M2; [| exact K | exact D]. apply deref_ok in M1. set (glue := [normal_label (g_label st + 1)]).
  assert (E : labels glue = List.map L [g_label st + 1]) by (subst glue; glue_labels).
  change (normal_label (g_label st + 1) :: l) with (glue ++ l).
  destruct (M2) as [W1 W2 W3 W4 W5 W6 W7 W8 W9 W10 W11]. cbn in W6, W7, W8, W9, W10, W11.
  eapply (lab_frame (exits b c st) b c st g _ _ _ glue _ _ (labx_lab _ _ _ _ _ _ _ _ M2 eq_refl eq_refl (fun l H => H))); [cbn; lia | reflexivity | apply Permutation_app_comm | exact E | glue_nodup | glue_range | glue_inner | apply jumps_label | auto | auto | auto | auto | | | auto].
  - unfold case_labels in *. cbn in W9. rewrite M1. destruct (g_cases g); [| contradiction]. destruct W9 as (new & -> & N).
    exists ((g_label st + 1, x0) :: new). split; [now rewrite <- app_assoc |]. intros p [<- | I]; [apply (glue_here _ _ _ _ E); cbn; auto |]. rewrite occ_app. specialize (N p I). lia.
  - destruct W10 as [W10 | W10]; [auto | right]. rewrite (occ_app _ _ glue). lia.
Qed.
Lemma lab_default_stmt b c sw s st cs st' : kids b c sw s -> deep c st -> gen_default_stmt gen s st = Ok (cs, st') -> lab b c st cs st'.
Proof.
  unfold gen_default_stmt. intros K D H. unfold next_label in H. cbv zeta in H. ginv H. injection H as <- <-. cbn [g_label gset_label] in *.
  eapply lab_child in M; [| exact K | exact D]. set (glue := [normal_label (g_label st + 1)]).
  assert (E : labels glue = List.map L [g_label st + 1]) by (subst glue; glue_labels).
  change (normal_label (g_label st + 1) :: l) with (glue ++ l).
  destruct (M) as [W1 W2 W3 W4 W5 W6 W7 W8 W9 W10 W11]. cbn in W6, W7, W8, W9, W10, W11.
  eapply (lab_frame (exits b c st) b c st g _ _ _ glue _ _ (labx_lab _ _ _ _ _ _ _ _ M eq_refl eq_refl (fun l H => H))); [cbn; lia | reflexivity | apply Permutation_app_comm | exact E | glue_nodup | glue_range | glue_inner | apply jumps_label | auto | auto | auto | auto | | | auto].
  - eapply case_labels_weaken; [exact W9 |]. intros n. rewrite (occ_app n _ glue). lia.
  - destruct W10 as [W10 | W10]; right; [rewrite W10; apply (glue_here _ _ _ _ E); cbn; auto |]. rewrite (occ_app _ _ glue). lia.
Qed.
Lemma last_label_in cs n : last_label cs = Some n -> In n (labels cs).
Proof.
  unfold last_label. intros H. destruct (rev cs) as [| x r] eqn:R; [discriminate |]. destruct x; try discriminate. injection H as ->.
  assert (E : cs = rev r ++ [IMMC_LABEL t v n]) by (rewrite <- (rev_involutive cs), R; reflexivity). rewrite E, labels_app. apply in_app_iff. right. now left.
Qed.
Lemma lab_if b c sw s st cs st' : kids b c sw s -> deep c st -> gen_if_without_else_stmt gen s st = Ok (cs, st') -> lab b c st cs st'.
Proof.
  unfold gen_if_without_else_stmt. intros K D H. unfold next_label in H. cbv zeta in H. ginv H.
  eapply lab_jmp_cond in M; [| exact K | exact D]. destruct M as (A & t & f & h & T & J). known. cbn [g_label gset_label] in *.
  assert (W : lab b c (gset_label (g_label st + 1) st) (l ++ l0 ++ []) g0).
  { eapply lab_app; [exact A |]. eapply lab_app; [exact M0 |]. apply lab_plain; [constructor | apply same_refl]. }
  destruct (last_label l0) as [n |] eqn:LL; injection H as <- <-; rewrite J.
  - set (glue := [IMMC_INST t (Some (new_label_immcope n)) f h]). apply last_label_in in LL. apply occ_in in LL.
    eapply (lab_frame (exits b c st) b c st g0 _ _ _ glue [] _ (labx_lab _ _ _ _ _ _ _ _ W eq_refl eq_refl (fun l H => H))); [cbn; lia | reflexivity | rewrite ?app_nil_r; rewrite <- app_assoc; apply Permutation_app_head, Permutation_app_comm | reflexivity | glue_nodup | intros ? [] | glue_inner | apply jumps_jump; left; rewrite !occ_app; lia | auto | ..].
    all: destruct W as [W1 W2 W3 W4 W5 W6 W7 W8 W9 W10 W11]; auto.
    + eapply case_labels_weaken; [exact W9 |]. intros n1. rewrite (occ_app n1 _ glue). lia.
    + destruct W10 as [W10 | W10]; [auto | right]. rewrite (occ_app _ _ glue). lia.
  - cbn [app]. set (glue := [IMMC_INST t (Some (new_label_immcope_from_id (g_label st + 1))) f h; normal_label (g_label st + 1)]).
    assert (E : labels glue = List.map L [g_label st + 1]) by (subst glue; glue_labels).
    assert (JJ : forall P : name -> Prop, P (L (g_label st + 1)) -> jumps_to P glue) by (intros P HP; subst glue; apply jumps_cons; [apply jumps_jump; exact HP | apply jumps_label]).
    eapply (lab_frame (exits b c st) b c st g0 _ _ _ glue _ _ (labx_lab _ _ _ _ _ _ _ _ W eq_refl eq_refl (fun l H => H))); [cbn; lia | reflexivity | subst glue; perms | exact E | glue_nodup | glue_range | glue_inner | apply JJ; left; apply (glue_here _ _ _ _ E); cbn; auto | auto | ..].
    all: destruct W as [W1 W2 W3 W4 W5 W6 W7 W8 W9 W10 W11]; auto.
    + eapply case_labels_weaken; [exact W9 |]. intros n1. rewrite (occ_app n1 _ glue). lia.
    + destruct W10 as [W10 | W10]; [auto | right]. rewrite (occ_app _ _ glue). lia.
Qed.
Lemma lab_if_else b c sw s st cs st' : kids b c sw s -> deep c st -> gen_if_with_else_stmt gen s st = Ok (cs, st') -> lab b c st cs st'.
Proof.
  unfold gen_if_with_else_stmt. intros K D H. unfold next_label in H. cbv zeta in H. ginv H.
  eapply lab_append_jmp in M; [| exact K | exact D]. apply conditional_lab in M as (c0 & j & -> & A & J1 & J2 & J3). known. cbn [g_label gset_label] in *.
  assert (W : lab b c (gset_label (g_label st + 1 + 1) st) (c0 ++ l0 ++ l1 ++ []) g1).
  { eapply lab_app; [exact A |]. eapply lab_app; [exact M0 |]. eapply lab_app; [exact M1 |]. apply lab_plain; [constructor | apply same_refl]. }
  destruct (last_label (normal_label (g_label st + 1) :: l1)) as [n |] eqn:LL; injection H as <- <-.
  - set (glue := [j; IMMC_INST IMMC_INST_JMP (Some (new_label_immcope n)) None None; normal_label (g_label st + 1)]).
    assert (E : labels glue = List.map L [g_label st + 1]) by (subst glue; glue_labels).
    assert (JJ : forall P : name -> Prop, P (L (g_label st + 1)) -> P n -> jumps_to P glue).
    { intros P HP HQ. subst glue. apply jumps_cons; [apply (jumps_target _ _ _ J3 HP) |]. apply jumps_cons; [apply jumps_jump; exact HQ | apply jumps_label]. }
    rewrite <- ?app_assoc. cbn [app].
    eapply (lab_frame (exits b c st) b c st g1 _ _ _ glue _ _ (labx_lab _ _ _ _ _ _ _ _ W eq_refl eq_refl (fun l H => H))); [cbn; lia | reflexivity | subst glue; rewrite ?app_nil_r; perms; apply Permutation_app_comm || idtac | exact E | glue_nodup | glue_range | glue_inner | apply JJ; left; [apply (glue_here _ _ _ _ E); cbn; auto |] | auto | ..].
    + apply last_label_in in LL. change (normal_label (g_label st + 1) :: l1) with ([normal_label (g_label st + 1)] ++ l1) in LL. apply occ_in in LL. rewrite occ_app in LL.
      subst glue. rewrite ?occ_app, (occ_cons _ j), (occ_cons _ (IMMC_INST _ _ _ _)). lia.
    + apply W.
    + apply W.
    + apply W.
    + eapply case_labels_weaken; [apply W |]. intros n1. rewrite (occ_app n1 _ glue). lia.
    + destruct (lab_default _ _ _ _ _ W) as [W10 | W10]; [auto | right]. rewrite (occ_app _ _ glue). lia.
    + apply W.
  - rewrite <- ?app_assoc. cbn [app]. set (glue := [j; jmp_to (g_label st + 1 + 1); normal_label (g_label st + 1); normal_label (g_label st + 1 + 1)]).
    assert (E : labels glue = List.map L [g_label st + 1; g_label st + 1 + 1]) by (subst glue; glue_labels).
    assert (JJ : forall P : name -> Prop, P (L (g_label st + 1)) -> P (L (g_label st + 1 + 1)) -> jumps_to P glue) by (subst glue; glue_jumps).
    eapply (lab_frame (exits b c st) b c st g1 _ _ _ glue _ _ (labx_lab _ _ _ _ _ _ _ _ W eq_refl eq_refl (fun l H => H))); [cbn; lia | reflexivity | perms | exact E | glue_nodup | glue_range | glue_inner | apply JJ; left; apply (glue_here _ _ _ _ E); cbn; auto | auto | ..].
    all: destruct W as [W1 W2 W3 W4 W5 W6 W7 W8 W9 W10 W11]; auto.
    + eapply case_labels_weaken; [exact W9 |]. intros n. rewrite (occ_app n _ glue). lia.
    + destruct W10 as [W10 | W10]; [auto | right]. rewrite (occ_app _ _ glue). lia.
Qed.

(** a statement with the children [l] instead *)
Definition part (l : list srt) : srt := Srt SRT_EXPR_STMT None SPNone l.
Lemma kids_part b c sw x : inside b c sw x -> kids b c sw (part [x]).
Proof. intros I y [<- | []]. exact I. Qed.
Lemma lab_switch b c sw s st cs st' : srt_type s = SRT_SWITCH_STMT -> inside b c sw s -> deep c st -> gen_switch_stmt gen s st = Ok (cs, st') -> lab b c st cs st'.
Proof.
  intros T I D H. destruct s as [t d p ss]. cbn in T. subst t. cbn in I. destruct ss as [| e [| body [|]]]; try contradiction. destruct I as [Ie Ib].
  unfold gen_switch_stmt in H. unfold next_label in H. cbv zeta in H. apply bind_ok in H as ([[c1 r] g] & M & H).
  change (gen_child_reg gen (Srt SRT_SWITCH_STMT d p [e; body]) 0 st) with (gen_child_reg gen (part [e]) 0 st) in M.
  assert (K := kids_part _ _ _ _ Ie). eapply lab_reg in M; [| exact K | exact D]. cbn [g_label gset_label] in H.
  apply bind_ok in H as ([c2 g2] & M1 & H). unfold append_child in M1. cbn [gchild nth_error srt_children deref bind] in M1.
  apply (G _ _ _ _ _ _ _ _ Ib) in M1; [| exact (lab_deep _ _ _ _ _ M D)]. apply bind_ok in H as (cases & M2 & H). apply deref_ok in M2. injection H as <- <-.
  eapply lab_app; [exact M |]. set (sel := List.map _ cases). set (dest := if g_default g2 >? 0 then g_default g2 else g_label g + 1).
  set (glue := sel ++ [jmp_to dest; normal_label (g_label g + 1)]).
  assert (LS : labels sel = []). { subst sel. clear. induction cases as [| q cases IH]; [reflexivity | exact IH]. }
  assert (E : labels glue = List.map L [g_label g + 1]). { subst glue. rewrite labels_app, LS. reflexivity. }
  set (X := fun l => exits b c g l \/ l = L (g_label g + 1)).
  assert (W : labx X (g_label g + 1) (g_label g2) c2).
  { eapply (labx_lab X _ _ _ _ _ _ _ M1); [reflexivity | reflexivity |]. intros l [[_ F] | [[F1 F2] | F]]; cbn in *; [now right | left; right; left; auto | left; right; right; auto]. }
  destruct (M1) as [W1 W2 W3 W4 W5 W6 W7 W8 W9 W10 W11]. cbn in W1, W6, W7, W8, W9, W10, W11.
  unfold case_labels in W9. cbn in W9. rewrite M2 in W9. destruct W9 as (new & N0 & N). cbn in N0. subst new.
  eapply (lab_frame X b c g _ _ _ c2 glue _ _ W).
  - lia.
  - reflexivity.
  - subst glue. cbn [app]. change (jmp_to dest :: c2 ++ [normal_label (g_label g + 1)]) with ([jmp_to dest] ++ c2 ++ [normal_label (g_label g + 1)]).
    change [jmp_to dest; normal_label (g_label g + 1)] with ([jmp_to dest] ++ [normal_label (g_label g + 1)]).
    rewrite (app_assoc sel), (app_assoc sel). apply Permutation_app_swap_app.
  - exact E.
  - glue_nodup.
  - intros i [<- | []]. lia.
  - intros x HI. subst glue. apply in_app_iff in HI as [HI | [<- | [<- | []]]]; [| intros (? & ? & [? | ?]); discriminate ..].
    subst sel. apply in_map_iff in HI as (q & <- & _). intros (? & ? & [? | ?]); discriminate.
  - assert (JJ : forall P : name -> Prop, (forall q, In q cases -> P (L (fst q))) -> P (L dest) -> jumps_to P glue).
    { intros P HP HD. subst glue. apply jumps_app; [| apply jumps_cons; [apply jumps_jump; exact HD | apply jumps_label]].
      intros x t HI (t' & f & h & _ & Ej). subst sel. apply in_map_iff in HI as (q & <- & Hq). injection Ej as _ <- _ _. eexists. split; [reflexivity | now apply HP]. }
    apply JJ; [intros q Hq; left; rewrite occ_app; specialize (N q Hq); lia |]. left. subst dest. destruct (Z.gtb_spec (g_default g2) 0) as [Z | Z].
    + destruct W10 as [W10 | W10]; [lia |]. rewrite occ_app. lia.
    + apply (glue_here _ _ _ _ E). cbn. auto.
  - intros l [F | ->]; [auto | left]. rewrite E. now left.
  - reflexivity.
  - exact W7.
  - exact W8.
  - now apply case_labels_same.
  - now left.
  - exact W11.
Qed.
Lemma lab_while b c sw s st cs st' : srt_type s = SRT_WHILE_STMT -> inside b c sw s -> deep c st -> gen_while_stmt gen s st = Ok (cs, st') -> lab b c st cs st'.
Proof.
  intros T I D H. destruct s as [t d p ss]. cbn in T. subst t. cbn in I. destruct ss as [| e [| body [|]]]; try contradiction. destruct I as [Ie Ib].
  unfold gen_while_stmt in H. unfold next_label in H. cbv zeta in H. apply bind_ok in H as ([c1 g] & M & H).
  match type of M with append_jmp _ ?s _ _ _ _ = _ => change (append_jmp gen (part [e]) 0 false (g_label st + 1 + 1) (gset_label (g_label st + 1 + 1) (gset_label (g_label st + 1) st)) = Ok (c1, g)) in M end.
  assert (K := kids_part _ _ _ _ Ie). eapply lab_append_jmp in M; [| exact K | exact D]. apply conditional_lab in M as (c0 & j & -> & A & J1 & J2 & J3).
  apply bind_ok in H as ([c2 g2] & M1 & H). unfold append_child in M1. cbn [gchild nth_error srt_children deref bind g_label gset_label] in M1, H.
  apply (G _ _ _ _ _ _ _ _ Ib) in M1; [| eapply lab_deep in A; [exact A | exact D]]. injection H as <- <-.
  set (glue := [normal_label (g_label st + 1); j; jmp_to (g_label st + 1); normal_label (g_label st + 1 + 1)]).
  assert (E : labels glue = List.map L [g_label st + 1; g_label st + 1 + 1]) by (subst glue; glue_labels).
  assert (JJ : forall P : name -> Prop, P (L (g_label st + 1)) -> P (L (g_label st + 1 + 1)) -> jumps_to P glue) by (subst glue; glue_jumps).
  set (X := fun l => exits b c st l \/ l = L (g_label st + 1) \/ l = L (g_label st + 1 + 1)).
  assert (W : labx X (g_label st + 1 + 1) (g_label g2) (c0 ++ c2 ++ [])).
  { eapply labx_app; [eapply (labx_lab X _ _ _ _ _ _ _ A eq_refl eq_refl); intros l F; now left |].
    eapply labx_app; [| apply labx_nil]. apply (labx_lab X _ _ _ _ _ _ _ M1 eq_refl eq_refl).
    intros l [[_ F] | [[_ F] | [F0 F]]]; cbn in F0 || idtac; cbn in F; [now right; right | now right; left | left; right; right]. split; [exact F0 |]. rewrite F. f_equal. apply A. }
  destruct A as [A1 A2 A3 A4 A5 A6 A7 A8 A9 A10 A11], M1 as [W1 W2 W3 W4 W5 W6 W7 W8 W9 W10 W11]. cbn in A1, A6, A7, A8, A9, A10, A11, W1, W6, W7, W8, W9, W10, W11.
  rewrite <- ?app_assoc. cbn [app].
  eapply (lab_frame X b c st _ _ _ _ glue _ _ W); [lia | reflexivity | perms | exact E | glue_nodup | glue_range | glue_inner | apply JJ; left; apply (glue_here _ _ _ _ E); cbn; auto | | assumption | assumption | cbn; congruence | | | cbn; congruence].
  - intros l [F | F]; [now right | left]. rewrite E. cbn. destruct F as [F | F]; auto.
  - eapply case_labels_trans; [exact A9 | exact W9 |]. intros n. rewrite !occ_app. lia.
  - cbn. rewrite !occ_app. destruct A10 as [A10 | A10], W10 as [W10 | W10]; try (right; lia); [left; congruence |]. right. rewrite W10. lia.
Qed.
Lemma lab_for b c sw i e u body t d p st cs st' : inside b c sw i -> inside b c sw e -> inside b c sw u -> inside true (true, snd c) sw body -> deep c st ->
  gen_for_stmt gen (Srt t d p [i; e; u; body]) st = Ok (cs, st') -> lab b c st cs st'.
Proof.
  intros Ii Ie Iu Ib D H. unfold gen_for_stmt in H. unfold next_label in H. cbv zeta in H. unfold append_child in H. cbn [gchild nth_error srt_children deref bind g_label gset_label] in H.
  apply bind_ok in H as ([c0 g0] & M0 & H). apply (G _ _ _ _ _ _ _ _ Ii) in M0; [| exact D].
  apply bind_ok in H as ([c1 g1] & M1 & H).
  assert (B : exists j c1', c1 = c1' ++ j /\ lab b c g0 c1' g1 /\ labels j = [] /\ (forall x, In x j -> ~ entry x) /\ forall P : name -> Prop, P (L (g_label st + 1 + 1 + 1)) -> jumps_to P j).
  { destruct (srt_is e SRT_EXPR_STMT) eqn:S.
    - eapply lab_append_jmp in M1; [| apply (kids_inside _ _ _ _ Ie) | eapply lab_deep; [exact M0 | exact D]].
      + apply conditional_lab in M1 as (x & j & -> & A & J1 & J2 & J3). exists [j], x. splits; auto.
        * unfold labels. cbn. now rewrite J1.
        * now intros y [<- | []].
        * intros P HP. apply (jumps_target _ _ _ J3 HP).
      + unfold srt_is in S. destruct e as [te ? ? ?]. cbn in S |- *. destruct te; try reflexivity; discriminate S.
    - injection M1 as <- <-. exists [], []. splits; auto; [apply lab_plain; [constructor | apply same_refl] | intros P _; apply jumps_nil]. }
  destruct B as (j & c1' & -> & B & J1 & J2 & J3). apply bind_ok in H as ([c2 g2] & M2 & H).
  assert (D1 : deep c g1) by (eapply lab_deep; [exact B | eapply lab_deep; [exact M0 | exact D]]).
  apply (G _ _ _ _ _ _ _ _ Ib) in M2; [| exact D1]. apply bind_ok in H as ([c3 g3] & M3 & H).
  assert (D2 : deep c g2) by exact (lab_deep _ _ _ _ _ M2 D1).
  apply (G _ _ _ _ _ _ _ _ Iu) in M3; [| exact D2]. injection H as <- <-.
  set (glue := [normal_label (g_label st + 1)] ++ j ++ [normal_label (g_label st + 1 + 1); jmp_to (g_label st + 1); normal_label (g_label st + 1 + 1 + 1)]).
  assert (E : labels glue = List.map L [g_label st + 1; g_label st + 1 + 1; g_label st + 1 + 1 + 1]).
  { subst glue. rewrite !labels_app, J1. reflexivity. }
  assert (JJ : forall P : name -> Prop, P (L (g_label st + 1)) -> P (L (g_label st + 1 + 1 + 1)) -> jumps_to P glue).
  { intros P H1 H2. subst glue. apply jumps_app; [apply jumps_label |]. apply jumps_app; [now apply J3 |]. apply jumps_cons; [apply jumps_label |]. apply jumps_cons; [now apply jumps_jump | apply jumps_label]. }
  set (X := fun l => exits b c st l \/ l = L (g_label st + 1 + 1) \/ l = L (g_label st + 1 + 1 + 1)).
  assert (W : labx X (g_label st + 1 + 1 + 1) (g_label g3) (c0 ++ c1' ++ c2 ++ c3)).
  { assert (EQ0 := exits_eq b c (gset_label (g_label st + 1 + 1 + 1) st) g0). cbn in EQ0.
    eapply labx_app; [eapply (labx_lab X _ _ _ _ _ _ _ M0 eq_refl eq_refl); intros l F; now left |].
    eapply labx_app; [eapply (labx_lab X _ _ _ _ _ _ _ B eq_refl eq_refl); intros l F; left; eapply EQ0; [apply M0 .. | exact F] |].
    eapply labx_app; [eapply (labx_lab X _ _ _ _ _ _ _ M2 eq_refl eq_refl) | eapply (labx_lab X _ _ _ _ _ _ _ M3 eq_refl eq_refl)].
    - intros l [[_ F] | [[_ F] | [F0 F]]]; cbn in F; [now right; right | now right; left | left; right; right]. split; [exact F0 |]. rewrite F. f_equal. rewrite (lab_ret _ _ _ _ _ B). apply M0.
    - intros l F. left. eapply EQ0; [apply M0 .. |]. eapply (exits_eq b c g0 g1); [apply B .. |]. eapply exits_eq; [.. | exact F]; try reflexivity. cbn. exact (lab_ret _ _ _ _ _ M2). }
  destruct M0 as [A1 A2 A3 A4 A5 A6 A7 A8 A9 A10 A11], B as [B1 B2 B3 B4 B5 B6 B7 B8 B9 B10 B11], M2 as [V1 V2 V3 V4 V5 V6 V7 V8 V9 V10 V11], M3 as [W1 W2 W3 W4 W5 W6 W7 W8 W9 W10 W11].
  cbn in A1, A6, A7, A8, A9, A10, A11, B1, B6, B7, B8, B9, B10, B11, V1, V6, V7, V8, V9, V10, V11, W1, W6, W7, W8, W9, W10, W11.
  eapply (lab_frame X b c st _ _ _ _ glue _ _ W); [lia | reflexivity | | exact E | glue_nodup | glue_range | | apply JJ; left; apply (glue_here _ _ _ _ E); cbn; auto | | congruence | congruence | congruence | | | congruence].
  - subst glue. rewrite <- (app_assoc c1' j). cbn [app]. apply perm_step, perm_glue, perm_step, perm_glues, perm_step, perm_glue. apply Permutation_refl.
  - intros x I. subst glue. cbn [app In] in I. destruct I as [<- | I]; [intros (? & ? & [? | ?]); discriminate |]. apply in_app_iff in I as [I | I]; [now apply J2 |].
    destruct I as [<- | [<- | [<- | []]]]; (intros (? & ? & [? | ?]); discriminate).
  - intros l [F | F]; [now right | left]. rewrite E. cbn. destruct F as [F | F]; auto.
  - eapply case_labels_trans; [exact A9 | eapply case_labels_trans; [exact B9 | eapply case_labels_trans; [exact V9 | exact W9 |] |] |].
    + intros n. apply Nat.eq_le_incl. symmetry. apply (occ_app n c2 c3).
    + intros n. apply Nat.eq_le_incl. symmetry. apply (occ_app n c1' (c2 ++ c3)).
    + intros n. rewrite !occ_app. lia.
  - rewrite !occ_app. destruct W10 as [W10 | W10]; [| right; lia]. rewrite W10. destruct V10 as [V10 | V10]; [| right; lia]. rewrite V10. destruct B10 as [B10 | B10]; [| right; lia].
    rewrite B10. destruct A10 as [A10 | A10]; [left; congruence | right; lia].
Qed.
Lemma lab_scope b c f st cs st' : (forall st1 cs st2, deep c st1 -> f st1 = Ok (cs, st2) -> lab b c st1 cs st2) -> deep c st -> gin_scope f st = Ok (cs, st') -> lab b c st cs st'.
Proof.
  unfold gin_scope. intros F D H. ginv H. injection H as <- <-. apply F in M; [| intros E; specialize (D E); unfold sym_enter; cbn; lia].
  destruct M as [A1 A2 A3 A4 A5 A6 A7 A8 A9 A10 A11]. cbn in *. split; auto. cbn. unfold sym_exit in M1. destruct (g_syms g) as [| s1 [| s2 r]]; try discriminate M1; injection M1 as <-; cbn in *; lia.
Qed.

(** ** declarations *)
Lemma define_label_length t n d t' : sym_define_label t n d = Ok t' -> length t' = length t.
Proof. unfold sym_define_label. intros H. ginv H. destruct t; [discriminate |]. injection H as <-. destruct x; reflexivity. Qed.
Lemma define_memory_length t n d t' : sym_define_memory t n d = Ok t' -> length t' = length t.
Proof. unfold sym_define_memory. intros H. ginv H. destruct t; [discriminate |]. destruct x; ginv H; injection H as <-; reflexivity. Qed.
Lemma same_syms st t : length t = length (g_syms st) -> same st (gset_syms t st).
Proof. intros E. repeat split. exact E. Qed.
Lemma lab_tag b c s st cs st' : gen_tag_decl s st = Ok (cs, st') -> lab b c st cs st'.
Proof.
  unfold gen_tag_decl. intros H. ginv H. destruct x; try discriminate H; ginv H; injection H as <- <-; (apply lab_plain; [constructor | now repeat split]).
Qed.
Lemma lab_ident b c s st cs st' : gen_identifier_decl s st = Ok (cs, st') -> lab b c st cs st'.
Proof.
  unfold gen_identifier_decl. intros H. ginv H. injection H as <- <-. apply lab_plain; [constructor |]. apply same_syms.
  destruct (is_global st || negb (dtype_isobject x0)); [eapply define_label_length | eapply define_memory_length]; eassumption.
Qed.
Lemma lab_string b c s st cs st' : gen_string_decl s st = Ok (cs, st') -> lab b c st cs st'.
Proof. unfold gen_string_decl. intros H. ginv H. injection H as <- <-. apply lab_plain; [constructor |]. apply same_syms. eapply define_label_length. eassumption. Qed.
Lemma lab_init_decl b c sw s st cs st' : snd c = true -> kids b c sw s -> deep c st -> gen_init_decl gen s st = Ok (cs, st') -> lab b c st cs st'.
Proof.
  unfold gen_init_decl. intros S K D H. rewrite (deep_local _ _ D S) in H. unfold gen_local_init_decl in H. ginv H. known.
  destruct (Nat.eqb (length (srt_children s)) 1); [injection H as <- <-; exact M |]. ginv H. cbv zeta in H. ginv H. injection H as <- <-.
  apply (G b c sw) in M4; [| eapply kids_child; eauto | exact (lab_deep _ _ _ _ _ M D)].
  eapply lab_app; [exact M |]. eapply lab_same_l; [| eapply lab_same_r; [exact M4 |]]; now repeat split.
Qed.
Lemma lab_elements b c sw s e : kids b c sw s -> forall n i st cs st', deep c st -> gen_elements gen s e i n st = Ok (cs, st') -> lab b c st cs st'.
Proof.
  intros K. induction n as [| n IH]; intros i st cs st' D H; cbn in H; [injection H as <- <-; chain |].
  ginv H. injection H as <- <-. apply (G b c sw) in M0; [| eapply kids_child; eauto | exact D].
  eapply lab_app; [exact M0 |]. eapply IH; [| exact M1]. deeps.
Qed.
Lemma lab_local_members b c sw s base : kids b c sw s -> forall ms i st cs st', deep c st -> gen_local_members gen s base ms i st = Ok (cs, st') -> lab b c st cs st'.
Proof.
  intros K. induction ms as [| [[n d] off] ms IH]; intros i st cs st' D H; cbn in H; [injection H as <- <-; chain |].
  ginv H. injection H as <- <-. apply (G b c sw) in M0; [| eapply kids_child; eauto | exact D].
  eapply lab_app; [eapply lab_same_l; [| exact M0]; now repeat split |]. eapply IH; [| exact M1]. exact (lab_deep _ _ _ _ _ M0 D).
Qed.
Lemma lab_global_members b c sw s nb : kids b c sw s -> forall ms i st cs st', deep c st -> gen_global_members gen s nb ms i st = Ok (cs, st') -> lab b c st cs st'.
Proof.
  intros K. induction ms as [| [[n d] off] ms IH]; intros i st cs st' D H; cbn in H; [injection H as <- <-; chain |].
  ginv H. injection H as <- <-. apply (G b c sw) in M0; [| eapply kids_child; eauto | exact D].
  eapply lab_app; [exact M0 |]. eapply lab_app; [apply lab_plain; [| apply same_refl]; destruct (_ >? 0); repeat constructor |].
  eapply IH; [| exact M1]. exact (lab_deep _ _ _ _ _ M0 D).
Qed.
Lemma lab_struct_initializer b c sw d s st cs st' : kids b c sw s -> deep c st -> gen_struct_initializer gen d s st = Ok (cs, st') -> lab b c st cs st'.
Proof. unfold gen_struct_initializer. intros K D H. destruct d; try discriminate H. destruct (is_global st); [eapply lab_global_members | eapply lab_local_members]; eauto. Qed.
Lemma lab_array_initializer b c sw d e n s st cs st' : kids b c sw s -> deep c st -> gen_array_initializer gen d e n s st = Ok (cs, st') -> lab b c st cs st'.
Proof.
  unfold gen_array_initializer. intros K D H. ginv H. destruct (srt_is x SRT_SLITERAL_EXPR); [| eapply lab_elements; eauto].
  ginv H. destruct (is_global st); injection H as <- <-; (apply lab_plain; [plains | now repeat split]).
Qed.
Lemma lab_scalar_initializer b c sw d s st cs st' : kids b c sw s -> deep c st -> gen_local_scalar_initializer gen d s st = Ok (cs, st') -> lab b c st cs st'.
Proof. unfold gen_local_scalar_initializer. intros K D H. mono. ginv H. known. injection H as <- <-. chain. Qed.
Lemma lab_global_scalar b c d s st cs st' : gen_global_scalar_initializer d s st = Ok (cs, st') -> lab b c st cs st'.
Proof.
  unfold gen_global_scalar_initializer. intros H. ginv H. cbv zeta in H. repeat match type of H with (if ?x then _ else _) = _ => destruct x end; try discriminate H; injection H as <- <-; (apply lab_plain; [plains | apply same_refl]).
Qed.
Lemma lab_initializer b c sw od s st cs st' : kids b c sw s -> deep c st -> gen_initializer gen od s st = Ok (cs, st') -> lab b c st cs st'.
Proof.
  unfold gen_initializer. intros K D H. ginv H. destruct x; try (now destruct (is_global st); [eapply lab_global_scalar | eapply lab_scalar_initializer]; eauto); try (now eapply lab_array_initializer; eauto); try (now eapply lab_struct_initializer; eauto).
  ginv H. eapply lab_struct_initializer; eauto.
Qed.
Lemma lab_body b c sw od s st cs st' : inside b c sw s -> deep c st -> gen_body gen od s st = Ok (cs, st') -> lab b c st cs st'.
Proof.
  intros I D H. unfold gen_body in H.
  assert (K : transparent (srt_type s) = true -> kids b c sw s) by (intros T; now apply kids_inside).
  destruct (srt_type s) eqn:T; cbn [transparent] in K; try (specialize (K eq_refl)); try discriminate H.
  all: try solve [eapply lab_binary; [| exact K | exact D | exact H]; cbn; intuition discriminate].
  all: try solve [eapply lab_neg_not; [| exact K | exact D | exact H]; cbn; intuition discriminate].
  all: try solve [eapply lab_pointer_additive; [| exact K | exact D | exact H]; cbn; intuition discriminate].
  all: try solve [eapply lab_primary; exact H].
  all: try solve [eapply lab_incdec; [exact K | exact D | exact H]].
  all: try solve [eapply lab_list; [apply Forall_forall; exact K | exact D | exact H]].
  all: try solve [eapply lab_scope; [intros st1 cs1 st2 D1 H1; eapply lab_list; [apply Forall_forall; exact K | exact D1 | exact H1] | exact D | exact H]].
  all: try solve [eapply lab_logical; [exact K | exact D | exact H]].
  all: try solve [eapply lab_initializer; [exact K | exact D | exact H] | eapply lab_expression; [exact K | exact D | exact H] | eapply lab_assignment; [exact K | exact D | exact H] | eapply lab_conditional; [exact K | exact D | exact H]
    | eapply lab_pointer_diff; [exact K | exact D | exact H] | eapply lab_address; [exact K | exact D | exact H] | eapply lab_indirection; [exact K | exact D | exact H] | eapply lab_positive; [exact K | exact D | exact H] | eapply lab_logical_not; [exact K | exact D | exact H] | eapply lab_tomember; [exact K | exact D | exact H]].
  all: try solve [eapply lab_tag; exact H | eapply lab_ident; exact H | eapply lab_string; exact H | eapply lab_call; [exact T | exact I | exact D | exact H] | eapply lab_switch; [exact T | exact I | exact D | exact H] | eapply lab_while; [exact T | exact I | exact D | exact H]].
  all: destruct s as [t d p ss]; cbn in T; subst t; cbn in I.
  all: try contradiction.
  - destruct I as [F I]. eapply lab_init_decl; [exact F | | exact D | exact H]. intros x Hx. rewrite inside_all, Forall_forall in I. now apply I.
  - destruct I as [_ I]. eapply lab_case; [| exact D | exact H]. intros x Hx. rewrite inside_all, Forall_forall in I. now apply I.
  - destruct I as [_ I]. eapply lab_default_stmt; [| exact D | exact H]. intros x Hx. rewrite inside_all, Forall_forall in I. now apply I.
  - injection H as <- <-. apply lab_jmp. right. now left.
  - injection H as <- <-. apply lab_jmp. now left.
  - destruct I as [F I]. eapply lab_return; [exact F | | exact D | exact H]. intros x Hx. rewrite inside_all, Forall_forall in I. now apply I.
  - injection H as <- <-. apply lab_plain; [constructor | apply same_refl].
  - unfold gen_if_else_stmt in H. destruct (_ =? 2)%nat; [eapply lab_if | eapply lab_if_else]; eauto.
  - destruct ss as [| i [| e [| u [| body [|]]]]]; try contradiction. destruct I as (I1 & I2 & I3 & I4). eapply lab_scope; [| exact D | exact H].
    intros st1 cs1 st2 D1 H1. exact (lab_for _ _ _ _ _ _ _ _ _ _ _ _ _ I1 I2 I3 I4 D1 H1).
Qed.
End Lab.
Theorem gen_lab : forall fuel b c sw od s st cs st', inside b c sw s -> deep c st -> gen fuel od s st = Ok (cs, st') -> lab b c st cs st'.
Proof.
  induction fuel as [| f IH]; intros b c sw od s st cs st' I D H; [discriminate |]. exact (lab_body (gen f) IH _ _ _ _ _ _ _ _ I D H).
Qed.
