(** Proofs for C34, C45: the stack in the generated intermediate code *)
From Verif Require Import Base AstModel DtypeModel SymtabModel SrtModel ImmcModel ImmcgenModel TypeSpec ElabSpec ElabProofs ElabProofs2 ElabProofs5 ResolverSpec ResolverProofs LabelSpec LabelProofs LabelProofs2 LabelProofs3 CallSpec.
Local Open Scope Z_scope.
Notation L := create_label_name.
#[local] Arguments create_label_name : simpl never.
#[local] Arguments moves : simpl never.

(** labels, jumps and calls with the number of bytes on the stack *)
Definition target_of (c : immc) : list name :=
  match c with
  | IMMC_INST (IMMC_INST_JMP | IMMC_INST_JEQ | IMMC_INST_JNEQ | IMMC_INST_JGT | IMMC_INST_JGEQ | IMMC_INST_JLT | IMMC_INST_JLEQ) (Some (IMMC_OPERAND_LABEL l)) _ _ => [l]
  | _ => []
  end.
Definition is_call (c : immc) : bool := match c with IMMC_INST IMMC_INST_CALL _ _ _ => true | _ => false end.
Fixpoint dlabels (d : Z) (cs : list immc) : list (name * Z) :=
  match cs with [] => [] | c :: r => List.map (fun n => (n, d)) (label_of c) ++ dlabels (d + moves c) r end.
Fixpoint djumps (d : Z) (cs : list immc) : list (name * Z) :=
  match cs with [] => [] | c :: r => List.map (fun n => (n, d)) (target_of c) ++ djumps (d + moves c) r end.
Fixpoint dcalls (d : Z) (cs : list immc) : list Z :=
  match cs with [] => [] | c :: r => (if is_call c then [d + moves c] else []) ++ dcalls (d + moves c) r end.
Lemma grown_cons c cs : grown (c :: cs) = moves c + grown cs.
Proof. reflexivity. Qed.
Lemma grown_app a b : grown (a ++ b) = grown a + grown b.
Proof. induction a as [| x a IH]; cbn [app]; [reflexivity |]. rewrite !grown_cons. lia. Qed.
Lemma dlabels_app : forall a d b, dlabels d (a ++ b) = dlabels d a ++ dlabels (d + grown a) b.
Proof. induction a as [| x a IH]; intros d b; cbn [app dlabels]; [cbn; f_equal; lia |]. rewrite IH, grown_cons, <- app_assoc. do 3 f_equal. lia. Qed.
Lemma djumps_app : forall a d b, djumps d (a ++ b) = djumps d a ++ djumps (d + grown a) b.
Proof. induction a as [| x a IH]; intros d b; cbn [app djumps]; [cbn; f_equal; lia |]. rewrite IH, grown_cons, <- app_assoc. do 3 f_equal. lia. Qed.
Lemma dcalls_app : forall a d b, dcalls d (a ++ b) = dcalls d a ++ dcalls (d + grown a) b.
Proof. induction a as [| x a IH]; intros d b; cbn [app dcalls]; [cbn; f_equal; lia |]. rewrite IH, grown_cons, <- app_assoc. do 3 f_equal. lia. Qed.
Lemma dlabels_names d cs : List.map fst (dlabels d cs) = labels cs.
Proof. revert d. induction cs as [| c cs IH]; intros d; [reflexivity |]. cbn [dlabels]. unfold labels. cbn [flat_map]. rewrite map_app, IH, map_map, map_id. reflexivity. Qed.

(** the parity of the stack: [None] when nothing is known *)
Definition parity (k : option bool) (d : Z) : Prop := match k with None => True | Some p => d mod 16 = (if p then 8 else 0) end.
Definition calls_even (k : option bool) (cs : list Z) : Prop := match k with None => True | Some _ => Forall (fun x => x mod 16 = 0) cs end.
(** code from depth [d] to depth [d']; jumps to the outside, to [X], are made at depth [x] *)
Definition ordinary (c : immc) : Prop := match c with IMMC_INST (IMMC_INST_ENTER | IMMC_INST_LEAVE) _ _ _ => False | _ => True end.
Definition lv (k : bool) (X : name -> Prop) (x d : Z) (cs : list immc) (d' : Z) : Prop :=
  d + grown cs = d' /\ (forall n y, In (n, y) (djumps d cs) -> In (n, y) (dlabels d cs) \/ y = x /\ X n)
  /\ (k = true -> Forall (fun x => x mod 16 = 0) (dcalls d cs)) /\ Forall ordinary cs.
Lemma lv_app k X x d c1 d1 c2 d2 : lv k X x d c1 d1 -> lv k X x d1 c2 d2 -> lv k X x d (c1 ++ c2) d2.
Proof.
  intros (A & B & C & D) (A' & B' & C' & D'). unfold lv. splits.
  - rewrite grown_app. lia.
  - intros n y. rewrite djumps_app, dlabels_app, A, !in_app_iff. intros [I | I]; [apply B in I | apply B' in I]; tauto.
  - intros K. rewrite dcalls_app, A, Forall_app. auto.
  - now apply Forall_app.
Qed.
Lemma lv_weaken k (X Y : name -> Prop) x d cs d' : (forall n, X n -> Y n \/ In (n, x) (dlabels d cs)) -> lv k X x d cs d' -> lv k Y x d cs d'.
Proof. intros W (A & B & C & D). unfold lv. splits; auto. intros n y I. apply B in I as [I | [-> I]]; [auto |]. apply W in I. tauto. Qed.
Lemma lv_nil k X x d : lv k X x d [] d.
Proof. unfold lv. splits; [cbn; lia | intros n y [] | constructor | constructor]. Qed.
(** instructions that leave the stack alone, calls and jumps excepted *)
Definition still (c : immc) : bool :=
  match c with
  | IMMC_INST t _ _ _ =>
      match t with
      | IMMC_INST_ENTER | IMMC_INST_LEAVE | IMMC_INST_STARG | IMMC_INST_PREP | IMMC_INST_CALL | IMMC_INST_CLEAN
      | IMMC_INST_JMP | IMMC_INST_JEQ | IMMC_INST_JNEQ | IMMC_INST_JGT | IMMC_INST_JGEQ | IMMC_INST_JLT | IMMC_INST_JLEQ => false
      | _ => true
      end
  | _ => true
  end.
Lemma still_moves c : still c = true -> moves c = 0 /\ target_of c = [] /\ is_call c = false /\ ordinary c.
Proof. destruct c as [t d f g | | |]; [destruct t |..]; cbn; try discriminate; auto. Qed.
Lemma lv_one k X x d c : still c = true -> lv k X x d [c] d.
Proof.
  intros S. apply still_moves in S as (M & T & K & O). unfold lv. cbn [grown List.map fold_right djumps dcalls]. rewrite M, T, K. splits; [lia | intros n y [] | constructor | repeat constructor; exact O].
Qed.
Lemma lv_still k X x d cs : forallb still cs = true -> lv k X x d cs d.
Proof.
  induction cs as [| c cs IH]; [intros _; apply lv_nil |]. cbn [forallb]. intros H. apply andb_true_iff in H as [H1 H2].
  apply (lv_app k X x d [c] d cs d); [now apply lv_one | auto].
Qed.
Lemma lv_jump k (X : name -> Prop) d t l f g : In t jumps -> X l -> lv k X d d [IMMC_INST t (Some (IMMC_OPERAND_LABEL l)) f g] d.
Proof.
  intros J H. assert (M : moves (IMMC_INST t (Some (IMMC_OPERAND_LABEL l)) f g) = 0) by (cbn in J; destruct J as [<- | [<- | [<- | [<- | [<- | [<- | [<- | []]]]]]]]; reflexivity).
  unfold lv. splits; [cbn; rewrite M; lia | | | cbn in J; destruct J as [<- | [<- | [<- | [<- | [<- | [<- | [<- | []]]]]]]]; repeat constructor].
  - intros n y I. right. cbn in J. destruct J as [<- | [<- | [<- | [<- | [<- | [<- | [<- | []]]]]]]]; cbn in I; destruct I as [I | []]; injection I as <- <-; auto.
  - intros _. cbn in J. destruct J as [<- | [<- | [<- | [<- | [<- | [<- | [<- | []]]]]]]]; constructor.
Qed.

(** what the code of a statement or expression does, wherever it is placed *)
Definition pk (k : option bool) : bool := match k with Some _ => true | None => false end.
Definition new_cases (d : Z) (st st' : gst) (cs : list immc) : Prop :=
  match g_cases st, g_cases st' with
  | None, None => True
  | Some l, Some l' => exists new, l' = l ++ new /\ forall p, In p new -> In (L (fst p), d) (dlabels d cs)
  | _, _ => False end.
Definition new_default (d : Z) (st st' : gst) (cs : list immc) : Prop :=
  g_default st' = g_default st \/ In (L (g_default st'), d) (dlabels d cs).
Record levx (k : option bool) (X : name -> Prop) (st : gst) (cs : list immc) (st' : gst) : Prop := {
  x_lv : forall d, parity k d -> lv (pk k) X d d cs d;
  x_cases : forall d, new_cases d st st' cs;
  x_default : forall d, new_default d st st' cs
}.
Definition like (st st' : gst) : Prop := g_cases st' = g_cases st /\ g_default st' = g_default st.
Lemma like_trans a b c : like a b -> like b c -> like a c.
Proof. intros [? ?] [? ?]. split; congruence. Qed.
Definition lev (k : option bool) (b : bool) (c : bool * bool) (sw : bool) (st : gst) (cs : list immc) (st' : gst) : Prop :=
  lab b c st cs st' /\ levx k (exits b c st) st cs st' /\ (sw = false -> like st st').
Lemma levx_grown k X st cs st' : levx k X st cs st' -> grown cs = 0.
Proof.
  intros [H _ _]. destruct k as [[] |]; [destruct (H 8 eq_refl) as (A & _) | destruct (H 0 eq_refl) as (A & _) | destruct (H 0 Logic.I) as (A & _)]; lia.
Qed.
Lemma levx_app k X st st1 st2 c1 c2 : levx k X st c1 st1 -> levx k X st1 c2 st2 -> levx k X st (c1 ++ c2) st2.
Proof.
  intros A B. pose proof (levx_grown _ _ _ _ _ A) as GA. destruct A as [A2 A3 A4], B as [B2 B3 B4]. split.
  - intros d P. eapply lv_app; [now apply A2 | now apply B2].
  - intros d. specialize (A3 d). specialize (B3 d). unfold new_cases in *. destruct (g_cases st), (g_cases st1), (g_cases st2); try contradiction; auto.
    destruct A3 as (x & -> & X1), B3 as (y & -> & Y). exists (x ++ y). split; [now rewrite app_assoc |].
    intros p I. rewrite dlabels_app, GA, Z.add_0_r, in_app_iff. apply in_app_iff in I as [I | I]; auto.
  - intros d. specialize (A4 d). specialize (B4 d). unfold new_default in *. rewrite dlabels_app, GA, Z.add_0_r, !in_app_iff.
    destruct B4 as [B4 | B4]; [| tauto]. rewrite B4. destruct A4 as [A4 | A4]; [left; congruence | tauto].
Qed.
Lemma levx_like k X st st' cs : like st st' -> (forall d, parity k d -> lv (pk k) X d d cs d) -> levx k X st cs st'.
Proof.
  intros [C D] H. split; auto.
  - intros d. unfold new_cases. rewrite C. destruct (g_cases st); [| exact Logic.I]. exists []. split; [now rewrite app_nil_r | intros p []].
  - intros d. now left.
Qed.
Lemma levx_still k X st st' cs : forallb still cs = true -> like st st' -> levx k X st cs st'.
Proof. intros S C. apply levx_like; auto. intros d _. now apply lv_still. Qed.
Lemma levx_jump k (X : name -> Prop) st t l f g : In t jumps -> X l -> levx k X st [IMMC_INST t (Some (IMMC_OPERAND_LABEL l)) f g] st.
Proof. intros J H. apply levx_like; [split; reflexivity |]. intros d _. now apply lv_jump. Qed.
Lemma levx_close k (X Y : name -> Prop) st cs st' : (forall n, X n -> Y n \/ forall d, In (n, d) (dlabels d cs)) -> levx k X st cs st' -> levx k Y st cs st'.
Proof. intros W [A B C]. split; auto. intros d P. eapply lv_weaken; [| now apply A]. intros n N. destruct (W n N); auto. Qed.
Lemma levx_weaken k (X Y : name -> Prop) st cs st' : (forall n, X n -> Y n) -> levx k X st cs st' -> levx k Y st cs st'.
Proof. intros W. apply levx_close. auto. Qed.
Lemma levx_like_l k X st st1 st2 cs : like st st1 -> levx k X st1 cs st2 -> levx k X st cs st2.
Proof. intros S H. apply (levx_app k X st st1 st2 [] cs); [now apply levx_still | assumption]. Qed.
Lemma levx_like_r k X st st1 st2 cs : levx k X st cs st1 -> like st1 st2 -> levx k X st cs st2.
Proof. intros H S. rewrite <- (app_nil_r cs). eapply levx_app; [eassumption |]. now apply levx_still. Qed.
Lemma same_like st st' : same st st' -> like st st'.
Proof. intros (_ & _ & _ & _ & A & B & _). now split. Qed.
Lemma lev_levx k b c sw st cs st' (X : name -> Prop) : lev k b c sw st cs st' -> (forall l, exits b c st l -> X l) -> levx k X st cs st'.
Proof. intros (_ & H & _) W. eapply levx_weaken; eauto. Qed.
(** where a label is *)
Lemma here_now n d t v r : In (n, d) (dlabels d (IMMC_LABEL t v n :: r)).
Proof. now left. Qed.
Lemma here_skip n d a r : grown a = 0 -> In (n, d) (dlabels d r) -> In (n, d) (dlabels d (a ++ r)).
Proof. intros G I. rewrite dlabels_app, G, Z.add_0_r, in_app_iff. now right. Qed.
Lemma here_skip1 n d c r : moves c = 0 -> In (n, d) (dlabels d r) -> In (n, d) (dlabels d (c :: r)).
Proof. intros G I. cbn [dlabels]. rewrite G, Z.add_0_r, in_app_iff. now right. Qed.
Lemma here_last n d a : In (n, d) (dlabels d a) -> forall b, In (n, d) (dlabels d (a ++ b)).
Proof. intros I b. rewrite dlabels_app, in_app_iff. now left. Qed.

Lemma lev_app k b c sw st st1 st2 c1 c2 : lev k b c sw st c1 st1 -> lev k b c sw st1 c2 st2 -> lev k b c sw st (c1 ++ c2) st2.
Proof.
  intros (A1 & A2 & A3) (B1 & B2 & B3). split; [eapply lab_app; eassumption |]. split; [| intros F; eapply like_trans; eauto].
  eapply levx_app; [exact A2 |]. eapply levx_weaken; [| exact B2]. intros n X. eapply exits_eq; [apply A1 .. | exact X].
Qed.
Lemma lev_still k b c sw st st' cs : Forall plain cs -> forallb still cs = true -> same st st' -> lev k b c sw st cs st'.
Proof. intros F S A. split; [now apply lab_plain |]. split; [apply levx_still; [assumption | now apply same_like] | intros _; now apply same_like]. Qed.
Lemma lev_same_l k b c sw st st1 st2 cs : same st st1 -> lev k b c sw st1 cs st2 -> lev k b c sw st cs st2.
Proof. intros S H. apply (lev_app k b c sw st st1 st2 [] cs); [apply lev_still; auto | assumption]. Qed.
Lemma lev_same_r k b c sw st st1 st2 cs : lev k b c sw st cs st1 -> same st1 st2 -> lev k b c sw st cs st2.
Proof. intros H S. rewrite <- (app_nil_r cs). eapply lev_app; [eassumption |]. apply lev_still; auto. Qed.
Lemma lev_deep k b c sw st cs st' : lev k b c sw st cs st' -> deep c st -> deep c st'.
Proof. intros (H & _). now apply (lab_deep _ _ _ _ _ H). Qed.

(** * Placement of the calls *)
Definition closed (s : srt) : Prop := inside false (false, false) false s.
Definition kp (k : option bool) (odd : bool) : option bool := match k with None => None | Some _ => Some odd end.
Fixpoint calm (k : option bool) (s : srt) : Prop :=
  let 'Srt t _ _ cs := s in
  match t, cs with
  | SRT_CALL_EXPR, [f; Srt _ _ _ args] =>
      let pad := padded (length args) in
      k <> Some true /\ Z.of_nat (length args) < 2 ^ 31 /\ closed f /\ fold_right and True (List.map closed args)
      /\ calm (kp k (xorb pad (Nat.odd (length args)))) f
      /\ (fix each (l : list srt) : Prop := match l with [] => True | a :: r => calm (kp k (xorb pad (Nat.odd (length r)))) a /\ each r end) args
  | _, _ => fold_right and True (List.map (calm k) cs)
  end.
Definition ck (k : option bool) (b : bool) (c : bool * bool) (sw : bool) (s : srt) : Prop :=
  forall x, In x (srt_children s) -> inside b c sw x /\ calm k x.
Lemma calm_child k s x : calm k s -> srt_type s <> SRT_CALL_EXPR -> In x (srt_children s) -> calm k x.
Proof.
  destruct s as [t d p cs]. cbn [srt_type srt_children]. intros H T I. assert (F : Forall (calm k) cs) by (apply inside_all; destruct t; try exact H; congruence).
  rewrite Forall_forall in F. auto.
Qed.
Lemma ck_inside k b c sw s : inside b c sw s -> calm k s -> transparent (srt_type s) = true -> srt_type s <> SRT_CALL_EXPR -> ck k b c sw s.
Proof. intros H C T N x I. split; [eapply inside_child; eauto | eapply calm_child; eauto]. Qed.
Lemma ck_kids k b c sw s : ck k b c sw s -> kids b c sw s.
Proof. intros H x I. now apply H. Qed.
Lemma ck_child k b c sw s i x : ck k b c sw s -> gchild s i = Ok x -> inside b c sw x /\ calm k x.
Proof. intros K E. apply K. eapply child_in. eassumption. Qed.
Lemma strip_calm k : forall s e, calm k s -> strip_casts s = Ok e -> calm k e.
Proof.
  fix IH 1. intros [t d p cs] e I H. destruct t; cbn [strip_casts] in H; try (injection H as <-; exact I).
  destruct cs as [| x cs]; [discriminate H |]. cbn in I. eapply IH; [| exact H]. apply I.
Qed.

Section Lev.
Variable gen : option dtype -> srt -> gst -> gres.
Hypothesis GL : forall b c sw od s st cs st', inside b c sw s -> deep c st -> gen od s st = Ok (cs, st') -> lab b c st cs st'.
Hypothesis G : forall k b c sw od s st cs st', inside b c sw s -> calm k s -> deep c st -> gen od s st = Ok (cs, st') -> lev k b c sw st cs st'.

Ltac mono := unfold inst2, inst3, next_reg in *; cbv zeta in *.
Ltac plains := repeat (apply Forall_cons || apply Forall_nil); cbn; try (intros [|[|[|[|[|[|[|[]]]]]]]]; discriminate); auto.
Ltac sames := first [ apply same_refl | eassumption | solve [repeat split] | eapply same_trans; [eassumption |]; sames ].
Ltac chain :=
  cbn [app];
  match goal with
  | |- lev _ _ _ _ ?st _ ?st => first [apply lev_still; [solve [plains] | reflexivity | apply same_refl]]
  | H : lev _ _ _ _ ?st ?c ?st1 |- lev _ _ _ _ ?st (?c ++ _) _ => apply (lev_app _ _ _ _ _ _ _ _ _ H); chain
  | H : lev _ _ _ _ ?st ?c ?st1 |- lev _ _ _ _ ?st ?c _ => apply (lev_same_r _ _ _ _ _ _ _ _ H); sames
  | H : same ?st ?st1 |- lev _ _ _ _ ?st _ _ => apply (lev_same_l _ _ _ _ _ _ _ _ H); clear H; chain
  | _ => apply lev_still; [solve [plains] | first [reflexivity | assumption] | sames]
  end.
Ltac deeps := solve [eauto 20 using lev_deep, same_deep].

Lemma lev_child k b c sw s i st cs st' : ck k b c sw s -> deep c st -> append_child gen s i st = Ok (cs, st') -> lev k b c sw st cs st'.
Proof. unfold append_child. intros K D H. ginv H. eapply ck_child in M as [M M']; [| exact K]. eapply G; eassumption. Qed.
Lemma lev_list k b c sw : forall l st cs st', Forall (fun x => inside b c sw x /\ calm k x) l -> deep c st -> append_list gen l st = Ok (cs, st') -> lev k b c sw st cs st'.
Proof.
  induction l as [| x l IH]; intros st cs st' F D H; cbn in H; [injection H as <- <-; apply lev_still; [constructor | reflexivity | apply same_refl] |].
  ginv H. inversion F as [| ? ? [F1 F2] F3]; subst. injection H as <- <-. assert (A := G _ _ _ _ _ _ _ _ _ F1 F2 D M).
  eapply lev_app; [exact A |]. eapply IH; [assumption | | exact M0]. deeps.
Qed.
Lemma lev_int k b c sw s i st cs o st' : ck k b c sw s -> deep c st -> gen_child_int gen s i st = Ok (cs, o, st') -> lev k b c sw st cs st'.
Proof.
  unfold gen_child_int. intros K D H. mono. ginv H. assert (I : inside b c sw x /\ calm k x) by (eapply ck_child; eauto). destruct I as [I J].
  assert (I1 : inside b c sw x1) by (eapply strip_inside; eauto). assert (J1 : calm k x1) by (eapply strip_calm; eauto). destruct (srt_is x1 SRT_ILITERAL_EXPR).
  - ginv H. injection H as <- _ <-. chain.
  - ginv H. assert (A := G _ _ _ _ _ _ _ _ _ I1 J1 D M2). destruct x0 as [d |]; injection H as <- _ <-; chain.
Qed.
Lemma lev_reg k b c sw s i st cs o st' : ck k b c sw s -> deep c st -> gen_child_reg gen s i st = Ok (cs, o, st') -> lev k b c sw st cs st'.
Proof.
  unfold gen_child_reg. intros K D H. mono. ginv H. assert (A := lev_int _ _ _ _ _ _ _ _ _ _ K D M).
  destruct o0; try discriminate H; injection H as <- _ <-; chain.
Qed.
Lemma lev_ptr k b c sw s i st cs o st' : ck k b c sw s -> deep c st -> gen_child_ptr gen s i st = Ok (cs, o, st') -> lev k b c sw st cs st'.
Proof.
  unfold gen_child_ptr. intros K D H. ginv H. assert (I : inside b c sw x /\ calm k x) by (eapply ck_child; eauto). destruct I as [I J].
  destruct x0; ginv H.
  - injection H as <- _ <-. chain.
  - injection H as <- _ <-. assert (A := G _ _ _ _ _ _ _ _ _ I J D M1). chain.
Qed.
Ltac known :=
  repeat match goal with
  | M : gen_child_int gen _ _ ?st = Ok (_, _, _) |- _ => eapply lev_int in M; [| eassumption | deeps]
  | M : gen_child_reg gen _ _ ?st = Ok (_, _, _) |- _ => eapply lev_reg in M; [| eassumption | deeps]
  | M : gen_child_ptr gen _ _ ?st = Ok (_, _, _) |- _ => eapply lev_ptr in M; [| eassumption | deeps]
  | M : append_child gen _ _ ?st = Ok (_, _) |- _ => eapply lev_child in M; [| eassumption | deeps]
  | M : update_non_void_expr_register _ _ = Ok _ |- _ => apply update_same in M
  | M : create_dest_reg _ _ = Ok (_, _) |- _ => apply dest_same in M
  end.
Lemma lev_jmp_cond k b c sw s i t st cs j st' : ck k b c sw s -> deep c st -> gen_jmp_cond gen s i t st = Ok (cs, j, st') ->
  lev k b c sw st cs st' /\ exists t f g, In t jumps /\ forall l, j l = IMMC_INST t (Some l) f g.
Proof.
  unfold gen_jmp_cond. intros K D H. ginv H. assert (I : inside b c sw x /\ calm k x) by (eapply ck_child; eauto). destruct I as [I J].
  destruct (get_cjmp_inst_type (srt_type x) t) as [t' |] eqn:T.
  - ginv H. injection H as <- <- <-. assert (K1 : ck k b c sw x) by (apply ck_inside; [exact I | exact J | destruct (srt_type x); try discriminate T; reflexivity | destruct (srt_type x); try discriminate T; discriminate]).
    known. split; [chain |]. unfold inst3. eexists _, _, _. split; [| intros ?; reflexivity].
    destruct (srt_type x); try discriminate T; destruct t; injection T as <-; cbn; tauto.
  - ginv H. injection H as <- <- <-. known. split; [chain |]. unfold inst3. eexists _, _, _. split; [| intros ?; reflexivity]. destruct t; cbn; tauto.
Qed.
Lemma lev_append_jmp k b c sw s i t l st cs st' : ck k b c sw s -> deep c st -> append_jmp gen s i t l st = Ok (cs, st') ->
  exists c0 t f g, cs = c0 ++ [IMMC_INST t (Some (new_label_immcope_from_id l)) f g] /\ In t jumps /\ lev k b c sw st c0 st'.
Proof.
  unfold append_jmp. intros K D H. ginv H. injection H as <- <-. apply (lev_jmp_cond _ _ _ _ _ _ _ _ _ _ _ K D) in M as (A & t' & f & h & J & E).
  exists l0, t', f, h. rewrite E. auto.
Qed.

(** ** expressions *)
Ltac start H := intros K D H; mono; ginv H; known; injection H as <- <-; try chain.
Lemma lev_assignment k b c sw s st cs st' : ck k b c sw s -> deep c st -> gen_assignment_expr gen s st = Ok (cs, st') -> lev k b c sw st cs st'.
Proof. unfold gen_assignment_expr. start H. Qed.
Definition quiet (t : insttype) : Prop := ~ In t jumps /\ forall d f g, still (IMMC_INST t d f g) = true.
Ltac quieten Q := let N := fresh "N" in let S := fresh "S" in destruct Q as [N S]; cbn [forallb]; rewrite ?S; reflexivity.
Lemma lev_binary k b c sw t s st cs st' : quiet t -> ck k b c sw s -> deep c st -> gen_binary_expr gen t s st = Ok (cs, st') -> lev k b c sw st cs st'.
Proof.
  unfold gen_binary_expr. intros [N Q]. intros K D H. mono. ginv H. known. injection H as <- <-.
  eapply lev_app; [eassumption |]. eapply lev_app; [eassumption |]. apply lev_still; [solve [plains] | cbn [forallb]; now rewrite Q | sames].
Qed.
Lemma lev_pointer_additive k b c sw t s st cs st' : quiet t -> ck k b c sw s -> deep c st -> gen_pointer_additive_expr gen t s st = Ok (cs, st') -> lev k b c sw st cs st'.
Proof.
  unfold gen_pointer_additive_expr. intros [N Q]. intros K D H. mono. ginv H. known. injection H as <- <-.
  eapply lev_app; [eassumption |]. eapply lev_app; [eassumption |]. apply lev_still; [solve [plains] | cbn [forallb app]; rewrite ?Q; reflexivity | sames].
Qed.
Lemma lev_pointer_diff k b c sw s st cs st' : ck k b c sw s -> deep c st -> gen_pointer_diff_expr gen s st = Ok (cs, st') -> lev k b c sw st cs st'.
Proof. unfold gen_pointer_diff_expr. start H. Qed.
Lemma lev_tomember_address k b c sw a s st cs st' : ck k b c sw s -> deep c st -> gen_tomember_address_expr gen a s st = Ok (cs, st') -> lev k b c sw st cs st'.
Proof. unfold gen_tomember_address_expr. start H. Qed.
Lemma lev_address k b c sw s st cs st' : ck k b c sw s -> deep c st -> gen_address_expr gen s st = Ok (cs, st') -> lev k b c sw st cs st'.
Proof.
  unfold gen_address_expr. intros K D H. mono. ginv H. assert (I : inside b c sw x /\ calm k x) by (eapply ck_child; eauto). destruct I as [I J].
  destruct (srt_type x) eqn:T; try discriminate H.
  - assert (K1 : ck k b c sw x) by (apply ck_inside; [exact I | exact J | now rewrite T | rewrite T; discriminate]). known. exact H.
  - eapply lev_tomember_address; [| eassumption | exact H]. apply ck_inside; [exact I | exact J | now rewrite T | rewrite T; discriminate].
  - unfold gen_identifier_address_expr in H. mono. ginv H. known. injection H as <- <-. chain.
  - unfold gen_string_address_expr in H. mono. ginv H. known. injection H as <- <-. chain.
Qed.
Lemma lev_indirection k b c sw s st cs st' : ck k b c sw s -> deep c st -> gen_indirection_expr gen s st = Ok (cs, st') -> lev k b c sw st cs st'.
Proof. unfold gen_indirection_expr. start H. Qed.
Lemma lev_positive k b c sw s st cs st' : ck k b c sw s -> deep c st -> gen_positive_expr gen s st = Ok (cs, st') -> lev k b c sw st cs st'.
Proof. unfold gen_positive_expr. start H. Qed.
Lemma lev_neg_not k b c sw t s st cs st' : quiet t -> ck k b c sw s -> deep c st -> gen_neg_not_expr gen t s st = Ok (cs, st') -> lev k b c sw st cs st'.
Proof.
  unfold gen_neg_not_expr. intros [N Q] K D H. mono. ginv H. known. injection H as <- <-.
  eapply lev_app; [eassumption |]. apply lev_still; [solve [plains] | cbn [forallb app]; rewrite ?Q; reflexivity | sames].
Qed.
Lemma lev_logical_not k b c sw s st cs st' : ck k b c sw s -> deep c st -> gen_logical_not_expr gen s st = Ok (cs, st') -> lev k b c sw st cs st'.
Proof. unfold gen_logical_not_expr. start H. Qed.
Lemma lev_tomember k b c sw s st cs st' : ck k b c sw s -> deep c st -> gen_tomember_expr gen s st = Ok (cs, st') -> lev k b c sw st cs st'.
Proof. unfold gen_tomember_expr. intros K D H. mono. ginv H. apply (lev_tomember_address _ _ _ _ _ _ _ _ _ K D) in M0. known. injection H as <- <-. chain. Qed.
Lemma lev_incdec k b c sw s st cs st' : ck k b c sw s -> deep c st -> gen_incdec_expr gen s st = Ok (cs, st') -> lev k b c sw st cs st'.
Proof.
  unfold gen_incdec_expr. intros K D H. mono. ginv H. cbv zeta in H. known. destruct (srt_type s); try discriminate H; ginv H; known; injection H as <- <-; chain.
Qed.
Lemma lev_primary k b c sw s st cs st' : gen_primary_expr s st = Ok (cs, st') -> lev k b c sw st cs st'.
Proof. unfold gen_primary_expr. intros H. mono. ginv H. known. injection H as <- <-. chain. Qed.

(** ** calls *)
Lemma parity_add k p d : parity (kp k p) d -> parity (kp k (negb p)) (d + 8).
Proof. destruct k; [| trivial]. cbn. rewrite <- Z.add_mod_idemp_l by lia. intros ->. destruct p; reflexivity. Qed.
Lemma pk_kp k p : pk (kp k p) = pk k.
Proof. now destruct k. Qed.
Lemma no_exits st n : exits false (false, false) st n -> False.
Proof. intros [[F _] | [[F _] | [F _]]]; discriminate F. Qed.
Lemma deep_none st : deep (false, false) st.
Proof. intros F. discriminate F. Qed.
Lemma lv_push k X x d d0 f g : lv k X x d [IMMC_INST IMMC_INST_STARG d0 f g] (d + 8).
Proof. unfold lv. splits; [cbn; unfold moves; lia | intros n y [] | intros _; constructor | repeat constructor]. Qed.
Lemma lev_args k p pad : (forall i x, nth_error (srt_children p) i = Some x -> closed x /\ calm (kp k (xorb pad (Nat.odd (length (srt_children p) - 1 - i)))) x) ->
  forall n st cs st', (n <= length (srt_children p))%nat -> gen_args gen p n st = Ok (cs, st') ->
  like st st' /\ forall d, parity (kp k (xorb pad (Nat.odd (length (srt_children p) - n)))) d -> lv (pk k) (fun _ => False) 0 d cs (d + 8 * Z.of_nat n).
Proof.
  intros C. induction n as [| i IH]; intros st cs st' Le H; cbn [gen_args] in H.
  - injection H as <- <-. split; [split; reflexivity |]. intros d _. replace (d + _) with d by lia. apply lv_nil.
  - mono. apply bind_ok in H as ([[c1 src] g] & M & H). apply bind_ok in H as ([c2 g2] & M2 & H). injection H as <- <-.
    assert (X : exists x, nth_error (srt_children p) i = Some x) by (destruct (nth_error (srt_children p) i) eqn:E; [eauto | apply nth_error_None in E; lia]).
    destruct X as (x & X). destruct (C _ _ X) as [Cx Kx].
    assert (A : lev (kp k (xorb pad (Nat.odd (length (srt_children p) - 1 - i)))) false (false, false) false st c1 g).
    { clear IH M2. revert M. unfold gen_child_int, gchild. rewrite X. cbn [deref bind]. intros M. mono. ginv M.
      assert (I1 : closed x1) by (eapply strip_inside; eauto). assert (J1 := strip_calm _ _ _ Kx M1). destruct (srt_is x1 SRT_ILITERAL_EXPR).
      - ginv M. injection M as <- _ <-. chain.
      - ginv M. assert (A := G _ _ _ _ _ _ _ _ _ I1 J1 (deep_none _) M2). destruct x0; injection M as <- _ <-; chain. }
    destruct (IH _ _ _ (Nat.lt_le_incl _ _ Le) M2) as [L2 V2]. destruct A as (_ & A1 & A2). split; [eapply like_trans; [exact (A2 eq_refl) | exact L2] |].
    intros d P. replace (length (srt_children p) - S i)%nat with (length (srt_children p) - 1 - i)%nat in P by lia.
    destruct A1 as [A1 _ _]. specialize (A1 d P). rewrite pk_kp in A1.
    eapply lv_app; [eapply (lv_weaken _ _ (fun _ => False)) in A1; [| intros n F; destruct (no_exits _ _ F)] |].
    + destruct A1 as (B1 & B2 & B3). split; [exact B1 |]. split; [| exact B3]. intros n y I. destruct (B2 n y I) as [Q | [_ []]]. now left.
    + eapply (lv_app _ _ _ d [_] (d + 8)); [apply lv_push |]. replace (d + 8 * Z.of_nat (S i)) with (d + 8 + 8 * Z.of_nat i) by lia. apply V2.
      replace (length (srt_children p) - i)%nat with (S (length (srt_children p) - 1 - i)) by lia. rewrite Nat.odd_succ, <- Nat.negb_odd.
      rewrite <- negb_xorb_r.
      now apply parity_add.
Qed.
Lemma each_calm k pad : forall args, (fix each (l : list srt) : Prop := match l with [] => True | a :: r => calm (kp k (xorb pad (Nat.odd (length r)))) a /\ each r end) args ->
  forall i x, nth_error args i = Some x -> calm (kp k (xorb pad (Nat.odd (length args - 1 - i)))) x.
Proof.
  induction args as [| a r IH]; intros H i x E; [destruct i; discriminate |]. destruct H as [H1 H2]. destruct i as [| i]; cbn [nth_error length] in *.
  - injection E as <-. replace (S (length r) - 1 - 0)%nat with (length r) by lia. exact H1.
  - replace (S (length r) - 1 - S i)%nat with (length r - 1 - i)%nat by lia. now apply IH.
Qed.
Lemma odd_nat n : Z.odd (Z.of_nat n) = Nat.odd n.
Proof.
  induction n as [| n IH]; [reflexivity |]. rewrite Nat2Z.inj_succ, Z.odd_succ, Nat.odd_succ, <- Z.negb_odd, <- Nat.negb_odd. now rewrite IH.
Qed.
Lemma wraps32 z : 0 <= z < 2 ^ 31 -> wraps 32 z = z.
Proof. intros H. unfold wraps. change (2 ^ 32) with 4294967296. change (2 ^ (32 - 1)) with 2147483648. change (2 ^ 31) with 2147483648 in H. cbv zeta. rewrite Z.mod_small by lia. destruct (Z.ltb_spec z 2147483648); lia. Qed.
Lemma lv_outside k (X : name -> Prop) x y d cs d' : lv k (fun _ => False) x d cs d' -> lv k X y d cs d'.
Proof. intros (A & B & C). split; [exact A |]. split; [| exact C]. intros n z I. destruct (B n z I) as [Q | [_ []]]. now left. Qed.
Lemma lv_closed k st x y d cs d' X : lv k (exits false (false, false) st) x d cs d' -> lv k X y d cs d'.
Proof. intros H. apply (lv_outside _ _ x). eapply lv_weaken; [| exact H]. intros n F. destruct (no_exits _ _ F). Qed.
Lemma lev_call k b c sw s st cs st' : srt_type s = SRT_CALL_EXPR -> inside b c sw s -> calm k s -> deep c st -> gen_call_expr gen s st = Ok (cs, st') -> lev k b c sw st cs st'.
Proof.
  intros T I C D H. assert (LB := lab_call gen GL _ _ _ _ _ _ _ T I D H).
  destruct s as [t d0 pl ss]. cbn in T. subst t. cbn [inside] in I. destruct I as [_ I]. destruct ss as [| f [| [ta da pa args] [| z ss]]]; try contradiction; destruct ta; try contradiction.
  cbn [calm] in C. destruct C as (C1 & C2 & C3 & C4 & C5 & C6). unfold gen_call_expr in H. cbn [gchild srt_children nth_error deref bind] in H. cbv zeta in H.
  apply bind_ok in H as ([c1 g1] & M1 & H). apply bind_ok in H as ([[c2 fo] g2] & M2 & H). apply bind_ok in H as (dd & _ & H). apply bind_ok in H as ([dst g3] & M3 & H). apply bind_ok in H as (g4 & M4 & H). injection H as <- <-.
  apply inside_all in C4. set (N := length args) in *. set (pad := padded N) in *.
  destruct (lev_args k (Srt SRT_ARG_LIST da pa args) pad) with (n := N) (st := st) (cs := c1) (st' := g1) as [L1 V1]; [| apply Nat.le_refl | exact M1 |].
  { cbn [srt_children]. intros i x E. split; [rewrite Forall_forall in C4; apply C4; eapply nth_error_In; eassumption | now apply each_calm]. }
  cbn [srt_children] in V1. fold N in V1. rewrite Nat.sub_diag in V1. cbn [Nat.odd Nat.even negb] in V1. rewrite xorb_false_r in V1.
  assert (A : lev (kp k (xorb pad (Nat.odd N))) false (false, false) false g1 c2 g2).
  { eapply (lev_ptr _ _ _ _ (part [f]) 0%nat); [| apply deep_none |].
    - intros x [<- | []]. split; [exact C3 | exact C5].
    - exact M2. }
  assert (S : like g2 g4).
  { assert (S : like g2 g3). { destruct (is_void dd); [injection M3 as _ <-; split; reflexivity |]. ginv M3. apply dest_same in M. injection M3 as _ <-. now apply same_like. }
    eapply like_trans; [exact S |]. destruct dst; [apply update_same in M4; now apply same_like | injection M4 as <-; split; reflexivity]. }
  destruct A as (_ & [A1 _ _] & A2). assert (LK : like st g4) by (eapply like_trans; [exact L1 |]; eapply like_trans; [exact (A2 eq_refl) | exact S]).
  split; [exact LB |]. split; [| intros _; exact LK]. apply levx_like; [exact LK |]. intros d P.
  set (num := new_signed_int_immcope IMMC_SUFFIX_NONE IInt (Z.of_nat N)) in *.
  assert (CN : count_of (Some num) = Z.of_nat N) by (cbn [count_of num new_signed_int_immcope]; cbn [sval new_signed]; apply wraps32; lia).
  assert (PE : (6 <? Z.of_nat N) && Z.odd (Z.of_nat N) = pad).
  { subst pad. unfold padded. rewrite odd_nat. f_equal. destruct (Z.ltb_spec 6 (Z.of_nat N)), (Nat.ltb_spec 6 N); auto; lia. }
  set (dp := d + (if pad then 8 else 0)).
  assert (P1 : parity (kp k pad) dp).
  { subst dp. destruct k as [[] |]; cbn in P |- *; [congruence | | trivial]. rewrite <- Z.add_mod_idemp_l, P by lia. destruct pad; reflexivity. }
  assert (P2 : parity (kp k (xorb pad (Nat.odd N))) (dp + 8 * Z.of_nat N)).
  { destruct k as [q |]; cbn [kp parity] in P1 |- *; [| trivial]. rewrite <- Z.add_mod_idemp_l, P1 by lia. rewrite <- odd_nat.
    pose proof (Z.div_mod (Z.of_nat N) 2 ltac:(lia)) as DM. rewrite Zmod_odd in DM. set (q2 := Z.of_nat N / 2) in *. destruct (Z.odd (Z.of_nat N)).
    - replace ((if pad then 8 else 0) + 8 * Z.of_nat N) with ((if pad then 8 else 0) + 8 + q2 * 16) by lia. rewrite Z_mod_plus_full. destruct pad; reflexivity.
    - replace ((if pad then 8 else 0) + 8 * Z.of_nat N) with ((if pad then 8 else 0) + q2 * 16) by lia. rewrite Z_mod_plus_full. destruct pad; reflexivity. }
  set (dc := dp + 8 * Z.of_nat N - 8 * Z.min 6 (Z.of_nat N)).
  assert (DC : dc = d + (if 6 <? Z.of_nat N then 16 * ((Z.of_nat N - 6 + 1) / 2) else 0)).
  { subst dc dp. rewrite <- PE. pose proof (Z.div_mod (Z.of_nat N - 6 + 1) 2 ltac:(lia)) as DM. rewrite Zmod_odd in DM.
    replace (Z.of_nat N - 6 + 1) with (Z.of_nat N - 1 + 2 * (-2)) in DM at 3 by lia. rewrite Z.odd_add_mul_2 in DM. rewrite Z.odd_sub in DM. cbn [Z.odd xorb] in DM.
    destruct (Z.ltb_spec 6 (Z.of_nat N)); [| cbn [andb]; lia]. cbn [andb]. destruct (Z.odd (Z.of_nat N)); cbn [xorb] in DM; lia. }
  change (IMMC_INST IMMC_INST_PREP None (Some num) None :: c1 ++ c2 ++ _) with ([IMMC_INST IMMC_INST_PREP None (Some num) None] ++ c1 ++ c2 ++ [IMMC_INST IMMC_INST_CALL dst (Some fo) (Some num)] ++ [IMMC_INST IMMC_INST_CLEAN None (Some num) None]).
  eapply (lv_app _ _ _ d _ dp); [| eapply (lv_app _ _ _ dp _ (dp + 8 * Z.of_nat N)); [| eapply (lv_app _ _ _ _ _ (dp + 8 * Z.of_nat N)); [| eapply (lv_app _ _ _ _ _ dc)]]].
  - unfold lv. splits; [| intros n y [] | intros _; constructor | repeat constructor]. cbn [grown List.map fold_right]. unfold moves. rewrite CN, PE. subst dp. destruct pad; lia.
  - apply (lv_outside _ _ 0). apply V1. exact P1.
  - specialize (A1 _ P2). rewrite pk_kp in A1. eapply lv_closed. exact A1.
  - unfold lv. cbn [grown List.map fold_right djumps target_of dcalls is_call]. unfold moves. rewrite CN. splits; [lia | intros n y [] | | repeat constructor].
    intros K. constructor; [| constructor]. replace (dp + 8 * Z.of_nat N + -8 * Z.min 6 (Z.max 0 (Z.of_nat N))) with dc by lia. rewrite DC.
    destruct k as [[] |]; cbn in P; [congruence | | discriminate K]. rewrite <- Z.add_mod_idemp_l, P by lia. destruct (6 <? _); [| reflexivity]. rewrite Z.mul_comm. apply Z_mod_mult.
  - unfold lv. splits; [| intros n y [] | intros _; constructor | repeat constructor]. cbn [grown List.map fold_right]. unfold moves. rewrite CN, DC. destruct (6 <? Z.of_nat N); lia.

Qed.

(** ** labels and jumps *)
Ltac likes := solve [assumption | split; reflexivity | eapply like_trans; [eassumption |]; likes | apply same_like; sames].
Ltac growns := repeat match goal with
  | H : levx _ _ _ ?c _ |- _ => lazymatch goal with Q : grown c = 0 |- _ => fail | _ => assert (grown c = 0) by exact (levx_grown _ _ _ _ _ H) end end.
Ltac jump_moves := solve [reflexivity | match goal with T : In ?t jumps |- moves (IMMC_INST ?t _ _ _) = 0 => clear -T; cbn in T; destruct T as [<- | [<- | [<- | [<- | [<- | [<- | [<- | []]]]]]]]; reflexivity end].
Ltac find_label := cbn [app]; rewrite <- ?app_assoc; cbn [app];
  first [apply here_now | apply here_skip; [assumption | find_label] | apply here_skip1; [jump_moves | find_label]].
(** one piece after the other *)
Ltac pieces := cbn [app];
  lazymatch goal with
  | |- levx _ _ ?st [] _ => apply levx_still; [reflexivity | likes]
  | |- levx _ _ ?st (?c ++ ?r) _ =>
      match goal with
      | H : levx _ _ ?st1 c ?st2 |- _ => apply (levx_app _ _ _ st2 _ c r); [apply (levx_like_l _ _ _ st1); [likes | exact H] | pieces]
      end
  | |- levx _ _ ?st (?x :: ?r) _ =>
      apply (levx_app _ _ _ st _ [x] r); [first [apply levx_still; [reflexivity | likes] | apply levx_jump; [first [assumption | cbn; tauto] | hnf; tauto]] | pieces]
  | |- levx _ _ ?st ?c _ => match goal with H : levx _ _ ?st1 c ?st2 |- _ => apply (levx_like_l _ _ _ st1); [likes |]; apply (levx_like_r _ _ _ st2); [exact H | likes] end
  end.
Definition aim (st st' : gst) : Prop := g_brk st' = g_brk st /\ g_cont st' = g_cont st /\ g_ret st' = g_ret st.
Lemma aim_trans a b c : aim a b -> aim b c -> aim a c.
Proof. intros (? & ? & ?) (? & ? & ?). unfold aim. splits; congruence. Qed.
Lemma aim_exits b c st st' l : aim st st' -> exits b c st' l -> exits b c st l.
Proof. intros (? & ? & ?). now apply exits_eq. Qed.
Lemma lev_aim k b c sw st cs st' : lev k b c sw st cs st' -> aim st st'.
Proof. intros (A & _). unfold aim. splits; apply A. Qed.
Lemma same_aim st st' : same st st' -> aim st st'.
Proof. intros (_ & A & B & C & _). unfold aim. auto. Qed.
Lemma lev_like k b c sw st cs st' : lev k b c sw st cs st' -> sw = false -> like st st'.
Proof. now intros (_ & _ & A). Qed.
(** collect what is known of the states and pieces *)
Ltac aims := repeat match goal with
  | H : lev _ _ _ _ ?a _ ?b |- _ => lazymatch goal with Q : aim a b |- _ => fail | _ => assert (aim a b) by exact (lev_aim _ _ _ _ _ _ _ H) end
  | H : same ?a ?b |- _ => lazymatch goal with Q : aim a b |- _ => fail | _ => assert (aim a b) by exact (same_aim _ _ H) end end.
Ltac path := solve [ split; [|split]; reflexivity | assumption | match goal with H : aim ?a ?b |- aim ?x ?b => apply (aim_trans x a b); [path | exact H] end
  | match goal with H : aim ?a ?b |- aim ?x ?y => apply (aim_trans x b y); [apply (aim_trans x a b); [path | exact H] | split; [|split]; reflexivity] end ].
Ltac raise X k st := repeat match goal with
  | H : lev _ ?b ?c _ ?a ?cs ?a' |- _ => lazymatch goal with Q : levx k X a cs a' |- _ => fail | _ =>
      assert (levx k X a cs a') by (eapply lev_levx; [exact H |]; let l := fresh in let Q := fresh in intros l Q; left; apply (aim_exits b c st a l); [path | exact Q]) end end.
Ltac lpath := solve [ split; reflexivity | assumption | match goal with H : like ?a ?b |- like ?x ?b => apply (like_trans x a b); [lpath | exact H] end
  | match goal with H : like ?a ?b |- like ?x ?y => apply (like_trans x b y); [apply (like_trans x a b); [lpath | exact H] | split; reflexivity] end ].
Ltac alike := let F := fresh "F" in intros F; repeat match goal with
  | H : lev _ _ _ _ ?a _ ?b |- _ => lazymatch goal with Q : like a b |- _ => fail | _ => assert (like a b) by exact (lev_like _ _ _ _ _ _ _ H F) end
  | H : same ?a ?b |- _ => lazymatch goal with Q : like a b |- _ => fail | _ => assert (like a b) by exact (same_like _ _ H) end end; lpath.
Ltac finish LB X k st := aims; raise X k st; growns; split; [exact LB |]; split; [apply (levx_close _ X) | alike].
Ltac where_is := right; let d := fresh "d" in intros d; find_label.
Lemma lev_conditional k b c sw s st cs st' : ck k b c sw s -> deep c st -> gen_conditional_expr gen s st = Ok (cs, st') -> lev k b c sw st cs st'.
Proof.
  intros K D H. assert (LB := lab_conditional gen GL _ _ _ _ _ _ _ (ck_kids _ _ _ _ _ K) D H).
  unfold gen_conditional_expr in H. unfold next_label in H. cbv zeta in H. mono. ginv H. injection H as <- <-.
  eapply lev_append_jmp in M; [| exact K | exact D]. destruct M as (c0 & t & f & h & -> & T & A). known. cbn [g_label gset_label] in *.
  rewrite <- ?app_assoc in LB |- *. cbn [app] in LB |- *.
  set (X := fun l => exits b c st l \/ l = L (g_label st + 1) \/ l = L (g_label st + 1 + 1)). finish LB X k st; [| pieces].
  intros n [Q | [-> | ->]]; [now left | where_is ..].
Qed.
Lemma lev_logical k b c sw or s st cs st' : ck k b c sw s -> deep c st -> gen_logical_expr gen or s st = Ok (cs, st') -> lev k b c sw st cs st'.
Proof.
  intros K D H. assert (LB := lab_logical gen GL _ _ _ _ _ _ _ _ (ck_kids _ _ _ _ _ K) D H).
  unfold gen_logical_expr in H. unfold next_label in H. cbv zeta in H. mono. ginv H. injection H as <- <-.
  eapply lev_append_jmp in M; [| exact K | exact D]. destruct M as (c0 & t & f & h & -> & T & A).
  eapply lev_append_jmp in M0; [| exact K | deeps]. destruct M0 as (c1 & t' & f' & h' & -> & T' & A'). known. cbn [g_label gset_label] in *.
  rewrite <- ?app_assoc in LB |- *. cbn [app] in LB |- *.
  set (X := fun l => exits b c st l \/ l = L (g_label st + 1) \/ l = L (g_label st + 1 + 1)). finish LB X k st; [| pieces].
  intros n [Q | [-> | ->]]; [now left | where_is ..].
Qed.

(** ** statements *)
Lemma lev_jmp k b c sw st i : exits b c st (L i) -> lev k b c sw st [jmp_to i] st.
Proof.
  intros E. split; [now apply (lab_jmp gen GL) |]. split; [| intros _; split; reflexivity]. apply levx_jump; [cbn; tauto | exact E].
Qed.
Lemma lev_return k b c sw s st cs st' : snd c = true -> ck k b c sw s -> deep c st -> gen_return_stmt gen s st = Ok (cs, st') -> lev k b c sw st cs st'.
Proof.
  unfold gen_return_stmt. intros S K D H. ginv H. injection H as <- <-.
  assert (A : lev k b c sw st l g). { destruct (srt_children s); [injection M as <- <-; apply lev_still; [constructor | reflexivity | apply same_refl] |]. ginv M. known. injection M as <- <-. chain. }
  eapply lev_app; [exact A |]. apply lev_jmp. right. right. auto.
Qed.
Lemma lev_expression k b c sw s st cs st' : ck k b c sw s -> deep c st -> gen_expression_stmt gen s st = Ok (cs, st') -> lev k b c sw st cs st'.
Proof. unfold gen_expression_stmt. intros K D H. eapply lev_child in H; [| exact K | exact D]. eapply lev_same_l; [| exact H]. now repeat split. Qed.
Lemma lev_case k b c s st cs st' : ck k b c true s -> deep c st -> gen_case_stmt gen s st = Ok (cs, st') -> lev k b c true st cs st'.
Proof.
  intros K D H. assert (LB := lab_case gen GL _ _ _ _ _ _ _ (ck_kids _ _ _ _ _ K) D H).
  unfold gen_case_stmt in H. unfold next_label in H. ginv H. cbv zeta in H. ginv H. injection H as <- <-. cbn [g_label gset_label g_cases] in *.
  eapply lev_child in M2; [| exact K | exact D]. apply deref_ok in M1. split; [exact LB |]. split; [| discriminate].
  destruct M2 as (_ & [A1 A2 A3] & _). split.
  - intros d P. apply (lv_app _ _ _ d [_] d); [now apply lv_one | now apply A1].
  - intros d. specialize (A2 d). unfold new_cases in *. cbn [g_cases gset_cases gset_label] in A2. rewrite M1. destruct (g_cases g); [| contradiction]. destruct A2 as (new & -> & N).
    exists ((g_label st + 1, x0) :: new). split; [now rewrite <- app_assoc |]. intros p [<- | I]; [apply here_now |]. apply here_skip1; [reflexivity | now apply N].
  - intros d. destruct (A3 d) as [Q | Q]; [left; exact Q | right]. apply here_skip1; [reflexivity | exact Q].
Qed.
Lemma lev_default_stmt k b c s st cs st' : ck k b c true s -> deep c st -> gen_default_stmt gen s st = Ok (cs, st') -> lev k b c true st cs st'.
Proof.
  intros K D H. assert (LB := lab_default_stmt gen GL _ _ _ _ _ _ _ (ck_kids _ _ _ _ _ K) D H).
  unfold gen_default_stmt in H. unfold next_label in H. cbv zeta in H. ginv H. injection H as <- <-. cbn [g_label gset_label] in *.
  eapply lev_child in M; [| exact K | exact D]. split; [exact LB |]. split; [| discriminate].
  destruct M as (_ & [A1 A2 A3] & _). split.
  - intros d P. apply (lv_app _ _ _ d [_] d); [now apply lv_one | now apply A1].
  - intros d. specialize (A2 d). unfold new_cases in *. cbn [g_cases gset_default gset_label] in A2. destruct (g_cases st), (g_cases g); try contradiction; auto. destruct A2 as (new & -> & N).
    exists new. split; [reflexivity |]. intros p I. apply here_skip1; [reflexivity | now apply N].
  - intros d. destruct (A3 d) as [Q | Q]; right; [cbn [g_default gset_default] in Q; rewrite Q; apply here_now |]. apply here_skip1; [reflexivity | exact Q].
Qed.
Lemma last_label_here d cs n : last_label cs = Some n -> grown cs = 0 -> In (n, d) (dlabels d cs).
Proof.
  unfold last_label. intros H Gr. destruct (rev cs) as [| x r] eqn:R; [discriminate |]. destruct x; try discriminate. injection H as ->.
  assert (E : cs = rev r ++ [IMMC_LABEL t v n]) by (rewrite <- (rev_involutive cs), R; reflexivity). rewrite E in Gr |- *. rewrite grown_app in Gr. cbn [grown List.map fold_right] in Gr. change (moves (IMMC_LABEL t v n)) with 0 in Gr.
  apply here_skip; [lia | apply here_now].
Qed.
Lemma lev_if k b c sw s st cs st' : ck k b c sw s -> deep c st -> gen_if_without_else_stmt gen s st = Ok (cs, st') -> lev k b c sw st cs st'.
Proof.
  intros K D H. assert (LB := lab_if gen GL _ _ _ _ _ _ _ (ck_kids _ _ _ _ _ K) D H).
  unfold gen_if_without_else_stmt in H. unfold next_label in H. cbv zeta in H. ginv H.
  eapply lev_jmp_cond in M; [| exact K | exact D]. destruct M as (A & t & f & h & T & J). known. cbn [g_label gset_label] in *.
  destruct (last_label l0) as [n |] eqn:LL; injection H as <- <-; rewrite J in LB |- *.
  - set (X := fun l => exits b c st l \/ l = n). finish LB X k st; [| pieces].
    intros n' [Q | ->]; [now left | right]. intros d. apply here_skip; [assumption |]. apply here_skip1; [jump_moves |]. now apply last_label_here.
  - rewrite <- ?app_assoc in LB |- *. cbn [app] in LB |- *. set (X := fun l => exits b c st l \/ l = L (g_label st + 1)). finish LB X k st; [| pieces].
    intros n' [Q | ->]; [now left | where_is].
Qed.
Lemma lev_if_else k b c sw s st cs st' : ck k b c sw s -> deep c st -> gen_if_with_else_stmt gen s st = Ok (cs, st') -> lev k b c sw st cs st'.
Proof.
  intros K D H. assert (LB := lab_if_else gen GL _ _ _ _ _ _ _ (ck_kids _ _ _ _ _ K) D H).
  unfold gen_if_with_else_stmt in H. unfold next_label in H. cbv zeta in H. ginv H.
  eapply lev_append_jmp in M; [| exact K | exact D]. destruct M as (c0 & t & f & h & -> & T & A). known. cbn [g_label gset_label] in *.
  destruct (last_label (normal_label (g_label st + 1) :: l1)) as [n |] eqn:LL; injection H as <- <-; rewrite <- ?app_assoc in LB |- *; cbn [app] in LB |- *.
  - set (X := fun l => exits b c st l \/ l = L (g_label st + 1) \/ l = n). finish LB X k st; [| pieces].
    intros n' [Q | [-> | ->]]; [now left | where_is | right]. intros d. apply here_skip; [assumption |]. apply here_skip1; [jump_moves |]. apply here_skip; [assumption |].
    apply here_skip1; [reflexivity |]. apply last_label_here; [exact LL |]. rewrite grown_cons. change (moves (normal_label (g_label st + 1))) with 0. lia.
  - set (X := fun l => exits b c st l \/ l = L (g_label st + 1) \/ l = L (g_label st + 1 + 1)). finish LB X k st; [| pieces].
    intros n' [Q | [-> | ->]]; [now left | where_is ..].
Qed.
Lemma ck_part k b c sw x : inside b c sw x -> calm k x -> ck k b c sw (part [x]).
Proof. intros I J y [<- | []]. auto. Qed.
Lemma lev_switch k b c sw s st cs st' : srt_type s = SRT_SWITCH_STMT -> inside b c sw s -> calm k s -> deep c st -> gen_switch_stmt gen s st = Ok (cs, st') -> lev k b c sw st cs st'.
Proof.
  intros T I J D H. assert (LB := lab_switch gen GL _ _ _ _ _ _ _ T I D H). destruct s as [t d p ss]. cbn in T. subst t. cbn in I, J. destruct ss as [| e [| body [|]]]; try contradiction. destruct I as [Ie Ib]. destruct J as (Je & Jb & _).
  unfold gen_switch_stmt in H. unfold next_label in H. cbv zeta in H. apply bind_ok in H as ([[c1 r] g] & M & H).
  change (gen_child_reg gen (Srt SRT_SWITCH_STMT d p [e; body]) 0 st) with (gen_child_reg gen (part [e]) 0 st) in M.
  assert (K := ck_part _ _ _ _ _ Ie Je). eapply lev_reg in M; [| exact K | exact D]. cbn [g_label gset_label] in H.
  apply bind_ok in H as ([c2 g2] & M1 & H). unfold append_child in M1. cbn [gchild nth_error srt_children deref bind] in M1.
  apply (G _ _ _ _ _ _ _ _ _ Ib Jb) in M1; [| exact (lev_deep _ _ _ _ _ _ _ M D)]. apply bind_ok in H as (cases & M2 & H). apply deref_ok in M2. injection H as <- <-.
  split; [exact LB |]. assert (AM := lev_aim _ _ _ _ _ _ _ M). split.
  - eapply levx_app; [exact (proj1 (proj2 M)) |]. apply levx_like; [split; reflexivity |]. intros d0 P. destruct M1 as (_ & [A1 A2 A3] & _).
    specialize (A1 _ P). specialize (A2 d0). specialize (A3 d0). unfold new_cases in A2. cbn in A2. rewrite M2 in A2. destruct A2 as (new & N0 & N). cbn in N0. subst new. unfold new_default in A3. cbn [g_default gset_brk gset_default] in A3.
    set (sel := List.map _ cases). set (dest := if g_default g2 >? 0 then g_default g2 else g_label g + 1).
    assert (S0 : grown sel = 0). { subst sel. clear. induction cases as [| q cases IH]; [reflexivity |]. cbn [List.map]. rewrite grown_cons, IH. reflexivity. }
    assert (SE : forall (X : name -> Prop) x y, (forall q, In q cases -> X (L (fst q))) -> x = y -> lv (pk k) X x y sel y).
    { subst sel. clear. intros X x y F <-. induction cases as [| q cases IH]; [apply lv_nil |]. cbn [List.map]. apply (lv_app _ _ _ x [_] x); [apply lv_jump; [cbn; tauto | apply F; now left] | apply IH; intros q' I; apply F; now right]. }
    assert (G2 : grown c2 = 0) by (destruct A1 as (A1 & _); lia).
    set (X := fun l => exits b c st l \/ l = L dest \/ l = L (g_label g + 1) \/ exists q, In q cases /\ l = L (fst q)).
    assert (HE : In (L (g_label g + 1), d0) (dlabels d0 (sel ++ [jmp_to dest] ++ c2 ++ [normal_label (g_label g + 1)]))) by find_label.
    apply (lv_weaken _ X).
    { intros n [F | [-> | [-> | (q & Hq & ->)]]]; [now left | right | now right | right].
      - subst dest. destruct (Z.gtb_spec (g_default g2) 0) as [Z | Z]; [| exact HE]. destruct A3 as [A3 | A3]; [lia |].
        apply here_skip; [assumption |]. apply here_skip1; [reflexivity |]. apply here_last. exact A3.
      - apply here_skip; [assumption |]. apply here_skip1; [reflexivity |]. apply here_last. now apply N. }
    apply (lv_app _ _ _ _ _ d0); [apply SE; [intros q Hq; right; right; right; eauto | reflexivity] |].
    apply (lv_app _ _ _ _ [_] d0); [apply lv_jump; [cbn; tauto | right; now left] |].
    apply (lv_app _ _ _ _ _ d0); [| now apply lv_one].
    eapply lv_weaken; [| exact A1]. intros n [[_ F] | [[F1 F2] | F]]; cbn in *; left; [right; right; now left | left; apply (aim_exits _ _ _ _ _ AM); right; left; auto | left; apply (aim_exits _ _ _ _ _ AM); right; right; auto].
  - intros F. eapply like_trans; [exact (lev_like _ _ _ _ _ _ _ M F) | split; reflexivity].
Qed.
Lemma lev_while k b c sw s st cs st' : srt_type s = SRT_WHILE_STMT -> inside b c sw s -> calm k s -> deep c st -> gen_while_stmt gen s st = Ok (cs, st') -> lev k b c sw st cs st'.
Proof.
  intros T I J D H. assert (LB := lab_while gen GL _ _ _ _ _ _ _ T I D H). destruct s as [t d p ss]. cbn in T. subst t. cbn in I, J. destruct ss as [| e [| body [|]]]; try contradiction. destruct I as [Ie Ib]. destruct J as (Je & Jb & _).
  unfold gen_while_stmt in H. unfold next_label in H. cbv zeta in H. apply bind_ok in H as ([c1 g] & M & H).
  match type of M with append_jmp _ ?s _ _ _ _ = _ => change (append_jmp gen (part [e]) 0 false (g_label st + 1 + 1) (gset_label (g_label st + 1 + 1) (gset_label (g_label st + 1) st)) = Ok (c1, g)) in M end.
  assert (K := ck_part _ _ _ _ _ Ie Je). eapply lev_append_jmp in M; [| exact K | exact D]. destruct M as (c0 & t & f & h & -> & TJ & A).
  apply bind_ok in H as ([c2 g2] & M1 & H). unfold append_child in M1. cbn [gchild nth_error srt_children deref bind g_label gset_label] in M1, H.
  apply (G _ _ _ _ _ _ _ _ _ Ib Jb) in M1; [| eapply lev_deep in A; [exact A | exact D]]. injection H as <- <-.
  assert (AM := lev_aim _ _ _ _ _ _ _ A). rewrite <- ?app_assoc in LB |- *. cbn [app] in LB |- *.
  set (X := fun l => exits b c st l \/ l = L (g_label st + 1) \/ l = L (g_label st + 1 + 1)).
  assert (A' : levx k X (gset_label (g_label st + 1 + 1) (gset_label (g_label st + 1) st)) c0 g) by (eapply lev_levx; [exact A |]; intros l F; now left).
  assert (M1' : levx k X (gset_brk (g_label st + 1 + 1) (gset_cont (g_label st + 1) g)) c2 g2).
  { eapply lev_levx; [exact M1 |]. intros l [[_ F] | [[_ F] | [F0 F]]]; cbn in F; [now right; right | now right; left | left; right; right]. split; [exact F0 |]. rewrite F. f_equal. apply AM. }
  growns. split; [exact LB |]. split; [apply (levx_close _ X) |].
  - intros n' [Q | [-> | ->]]; [now left | where_is ..].
  - apply (levx_app _ _ _ st _ [_]); [apply levx_still; [reflexivity | likes] |].
    eapply levx_app; [eapply levx_like_l; [| exact A']; likes |]. apply (levx_app _ _ _ g _ [_]); [apply levx_jump; [assumption | hnf; tauto] |].
    eapply levx_app; [eapply levx_like_l; [| exact M1']; likes |]. apply (levx_app _ _ _ g2 _ [_]); [apply levx_jump; [cbn; tauto | hnf; tauto] |].
    apply levx_still; [reflexivity | likes].
  - intros F. assert (like st g) by exact (lev_like _ _ _ _ _ _ _ A F). assert (like g g2) by exact (lev_like _ _ _ _ _ _ _ M1 F). lpath.
Qed.
Lemma lev_for k b c sw i e u body t d p st cs st' : inside b c sw i -> inside b c sw e -> inside b c sw u -> inside true (true, snd c) sw body -> calm k i -> calm k e -> calm k u -> calm k body -> deep c st ->
  gen_for_stmt gen (Srt t d p [i; e; u; body]) st = Ok (cs, st') -> lev k b c sw st cs st'.
Proof.
  intros Ii Ie Iu Ib Ji Je Ju Jb D H. assert (LB := lab_for gen GL _ _ _ _ _ _ _ _ _ _ _ _ _ Ii Ie Iu Ib D H).
  unfold gen_for_stmt in H. unfold next_label in H. cbv zeta in H. unfold append_child in H. cbn [gchild nth_error srt_children deref bind g_label gset_label] in H.
  apply bind_ok in H as ([c0 g0] & M0 & H). apply (G _ _ _ _ _ _ _ _ _ Ii Ji) in M0; [| exact D].
  apply bind_ok in H as ([c1 g1] & M1 & H).
  set (le := g_label st + 1 + 1 + 1) in *.
  assert (B : exists j c1', c1 = c1' ++ j /\ lev k b c sw g0 c1' g1 /\ (j = [] \/ exists t f h, j = [IMMC_INST t (Some (new_label_immcope_from_id le)) f h] /\ In t jumps)).
  { destruct (srt_is e SRT_EXPR_STMT) eqn:S.
    - eapply lev_append_jmp in M1; [| apply (ck_inside _ _ _ _ _ Ie Je) | eapply lev_deep; [exact M0 | exact D]].
      + destruct M1 as (x & t0 & f & h & -> & TJ & A). eexists _, _. split; [reflexivity |]. split; [exact A |]. right. eauto 6.
      + unfold srt_is in S. destruct e as [te ? ? ?]. cbn in S |- *. destruct te; try reflexivity; discriminate S.
      + unfold srt_is in S. destruct e as [te ? ? ?]. cbn in S |- *. destruct te; try discriminate; discriminate S.
    - injection M1 as <- <-. exists [], []. splits; auto. apply lev_still; [constructor | reflexivity | apply same_refl]. }
  destruct B as (j & c1' & -> & B & J). apply bind_ok in H as ([c2 g2] & M2 & H).
  assert (D1 : deep c g1) by (eapply lev_deep; [exact B | eapply lev_deep; [exact M0 | exact D]]).
  apply (G _ _ _ _ _ _ _ _ _ Ib Jb) in M2; [| exact D1]. apply bind_ok in H as ([c3 g3] & M3 & H).
  assert (D2 : deep c g2) by exact (lev_deep _ _ _ _ _ _ _ M2 D1).
  apply (G _ _ _ _ _ _ _ _ _ Iu Ju) in M3; [| exact D2]. injection H as <- <-.
  assert (AM0 := lev_aim _ _ _ _ _ _ _ M0). assert (AM1 := lev_aim _ _ _ _ _ _ _ B). assert (AM2 := lev_aim _ _ _ _ _ _ _ M2).
  assert (AX : aim st g1) by (eapply aim_trans; [exact AM0 | exact AM1]).
  set (X := fun l => exits b c st l \/ l = L (g_label st + 1) \/ l = L (g_label st + 1 + 1) \/ l = L le).
  assert (A0 : levx k X st c0 g0) by (eapply levx_like_l; [| eapply lev_levx; [exact M0 |]; intros l F; now left]; likes).
  assert (A1 : levx k X g0 c1' g1) by (eapply lev_levx; [exact B |]; intros l F; left; exact (aim_exits _ _ _ _ _ AM0 F)).
  assert (A2 : levx k X g1 c2 g2).
  { eapply levx_like_l; [| eapply lev_levx; [exact M2 |]]; [likes |]. intros l [[_ F] | [[_ F] | [F0 F]]]; cbn in F; [right; now right; right | now right; right; left | left; right; right]. split; [exact F0 |]. rewrite F. f_equal. apply AX. }
  assert (A3 : levx k X g2 c3 g3).
  { eapply levx_like_l; [| eapply lev_levx; [exact M3 |]]; [likes |]. intros l F. left. apply (aim_exits _ _ _ _ _ AX). eapply exits_eq; [.. | exact F]; try reflexivity. cbn. apply AM2. }
  assert (GJ : grown j = 0) by (destruct J as [-> | (t0 & f & h & -> & TJ)]; [reflexivity |]; rewrite grown_cons; assert (Q : moves (IMMC_INST t0 (Some (new_label_immcope_from_id le)) f h) = 0) by jump_moves; rewrite Q; reflexivity).
  assert (AJ : levx k X g1 j g1) by (destruct J as [-> | (t0 & f & h & -> & TJ)]; [apply levx_still; [reflexivity | likes] | apply levx_jump; [assumption | hnf; tauto]]).
  growns. split; [exact LB |]. split; [apply (levx_close _ X) |].
  - intros n' [Q | [-> | [-> | ->]]]; [now left | where_is ..].
  - cbn [app]. eapply levx_app; [exact A0 |]. apply (levx_app _ _ _ g0 _ [_]); [apply levx_still; [reflexivity | likes] |]. rewrite <- app_assoc. eapply levx_app; [exact A1 |]. eapply levx_app; [exact AJ |].
    eapply levx_app; [exact A2 |]. apply (levx_app _ _ _ g2 _ [_]); [apply levx_still; [reflexivity | likes] |]. eapply levx_app; [exact A3 |].
    apply (levx_app _ _ _ g3 _ [_]); [apply levx_jump; [cbn; tauto | hnf; tauto] |]. apply levx_still; [reflexivity | likes].
  - intros F. assert (like st g0) by exact (lev_like _ _ _ _ _ _ _ M0 F). assert (like g0 g1) by exact (lev_like _ _ _ _ _ _ _ B F). assert (like g1 g2) by exact (lev_like _ _ _ _ _ _ _ M2 F). assert (like g2 g3) by exact (lev_like _ _ _ _ _ _ _ M3 F). lpath.
Qed.
Lemma lev_scope k b c sw f st cs st' : (forall st1 cs st2, deep c st1 -> f st1 = Ok (cs, st2) -> lev k b c sw st1 cs st2) -> deep c st -> gin_scope f st = Ok (cs, st') -> lev k b c sw st cs st'.
Proof.
  intros F D H. assert (LB : lab b c st cs st') by (refine (lab_scope gen GL b c f st cs st' _ D H); intros; now apply F).
  unfold gin_scope in H. ginv H. injection H as <- <-. apply F in M; [| intros E; specialize (D E); unfold sym_enter; cbn; lia].
  destruct M as (_ & [A1 A2 A3] & A4). split; [exact LB |]. split; [split; auto |]. intros Q. apply (A4 Q).
Qed.

(** ** declarations *)
Lemma lev_tag k b c sw s st cs st' : gen_tag_decl s st = Ok (cs, st') -> lev k b c sw st cs st'.
Proof.
  unfold gen_tag_decl. intros H. ginv H. destruct x; try discriminate H; ginv H; injection H as <- <-; (apply lev_still; [constructor | reflexivity | now repeat split]).
Qed.
Lemma lev_ident k b c sw s st cs st' : gen_identifier_decl s st = Ok (cs, st') -> lev k b c sw st cs st'.
Proof.
  unfold gen_identifier_decl. intros H. ginv H. injection H as <- <-. apply lev_still; [constructor | reflexivity |]. apply (same_syms).
  destruct (is_global st || negb (dtype_isobject x0)); [eapply define_label_length | eapply define_memory_length]; eassumption.
Qed.
Lemma lev_string k b c sw s st cs st' : gen_string_decl s st = Ok (cs, st') -> lev k b c sw st cs st'.
Proof. unfold gen_string_decl. intros H. ginv H. injection H as <- <-. apply lev_still; [constructor | reflexivity |]. apply (same_syms). eapply define_label_length. eassumption. Qed.
Lemma lev_init_decl k b c sw s st cs st' : snd c = true -> ck k b c sw s -> deep c st -> gen_init_decl gen s st = Ok (cs, st') -> lev k b c sw st cs st'.
Proof.
  unfold gen_init_decl. intros S K D H. rewrite (deep_local _ _ D S) in H. unfold gen_local_init_decl in H. ginv H. known.
  destruct (Nat.eqb (length (srt_children s)) 1); [injection H as <- <-; exact M |]. ginv H. cbv zeta in H. ginv H. injection H as <- <-.
  assert (I : inside b c sw x2 /\ calm k x2) by (eapply ck_child; eauto). destruct I as [I J].
  apply (G k b c sw) in M4; [| exact I | exact J | exact (lev_deep _ _ _ _ _ _ _ M D)].
  eapply lev_app; [exact M |]. eapply lev_same_l; [| eapply lev_same_r; [exact M4 |]]; now repeat split.
Qed.
Lemma lev_elements k b c sw s e : ck k b c sw s -> forall n i st cs st', deep c st -> gen_elements gen s e i n st = Ok (cs, st') -> lev k b c sw st cs st'.
Proof.
  intros K. induction n as [| n IH]; intros i st cs st' D H; cbn in H; [injection H as <- <-; chain |].
  ginv H. injection H as <- <-. assert (I : inside b c sw x /\ calm k x) by (eapply ck_child; eauto). destruct I as [I J]. apply (G k b c sw) in M0; [| exact I | exact J | exact D].
  eapply lev_app; [exact M0 |]. eapply IH; [| exact M1]. deeps.
Qed.
Lemma lev_local_members k b c sw s base : ck k b c sw s -> forall ms i st cs st', deep c st -> gen_local_members gen s base ms i st = Ok (cs, st') -> lev k b c sw st cs st'.
Proof.
  intros K. induction ms as [| [[n d] off] ms IH]; intros i st cs st' D H; cbn in H; [injection H as <- <-; chain |].
  ginv H. injection H as <- <-. assert (I : inside b c sw x /\ calm k x) by (eapply ck_child; eauto). destruct I as [I J]. apply (G k b c sw) in M0; [| exact I | exact J | exact D].
  eapply lev_app; [eapply lev_same_l; [| exact M0]; now repeat split |]. eapply IH; [| exact M1]. exact (lev_deep _ _ _ _ _ _ _ M0 D).
Qed.
Lemma lev_global_members k b c sw s nb : ck k b c sw s -> forall ms i st cs st', deep c st -> gen_global_members gen s nb ms i st = Ok (cs, st') -> lev k b c sw st cs st'.
Proof.
  intros K. induction ms as [| [[n d] off] ms IH]; intros i st cs st' D H; cbn in H; [injection H as <- <-; chain |].
  ginv H. injection H as <- <-. assert (I : inside b c sw x /\ calm k x) by (eapply ck_child; eauto). destruct I as [I J]. apply (G k b c sw) in M0; [| exact I | exact J | exact D].
  eapply lev_app; [exact M0 |]. eapply lev_app; [apply lev_still; [| | apply same_refl]; destruct (_ >? 0); first [reflexivity | repeat constructor] |].
  eapply IH; [| exact M1]. exact (lev_deep _ _ _ _ _ _ _ M0 D).
Qed.
Lemma lev_struct_initializer k b c sw d s st cs st' : ck k b c sw s -> deep c st -> gen_struct_initializer gen d s st = Ok (cs, st') -> lev k b c sw st cs st'.
Proof. unfold gen_struct_initializer. intros K D H. destruct d; try discriminate H. destruct (is_global st); [eapply lev_global_members | eapply lev_local_members]; eauto. Qed.
Lemma lev_array_initializer k b c sw d e n s st cs st' : ck k b c sw s -> deep c st -> gen_array_initializer gen d e n s st = Ok (cs, st') -> lev k b c sw st cs st'.
Proof.
  unfold gen_array_initializer. intros K D H. ginv H. destruct (srt_is x SRT_SLITERAL_EXPR); [| eapply lev_elements; eauto].
  ginv H. destruct (is_global st); injection H as <- <-; (apply lev_still; [plains | reflexivity | now repeat split]).
Qed.
Lemma lev_scalar_initializer k b c sw d s st cs st' : ck k b c sw s -> deep c st -> gen_local_scalar_initializer gen d s st = Ok (cs, st') -> lev k b c sw st cs st'.
Proof. unfold gen_local_scalar_initializer. intros K D H. mono. ginv H. known. injection H as <- <-. chain. Qed.
Lemma lev_global_scalar k b c sw d s st cs st' : gen_global_scalar_initializer d s st = Ok (cs, st') -> lev k b c sw st cs st'.
Proof.
  unfold gen_global_scalar_initializer. intros H. ginv H. cbv zeta in H. repeat match type of H with (if ?x then _ else _) = _ => destruct x end; try discriminate H; injection H as <- <-; (apply lev_still; [plains | reflexivity | apply same_refl]).
Qed.
Lemma lev_initializer k b c sw od s st cs st' : ck k b c sw s -> deep c st -> gen_initializer gen od s st = Ok (cs, st') -> lev k b c sw st cs st'.
Proof.
  unfold gen_initializer. intros K D H. ginv H. destruct x; try (now destruct (is_global st); [eapply lev_global_scalar | eapply lev_scalar_initializer]; eauto); try (now eapply lev_array_initializer; eauto); try (now eapply lev_struct_initializer; eauto).
  ginv H. eapply lev_struct_initializer; eauto.
Qed.
Lemma lev_body k b c sw od s st cs st' : inside b c sw s -> calm k s -> deep c st -> gen_body gen od s st = Ok (cs, st') -> lev k b c sw st cs st'.
Proof.
  intros I J D H. unfold gen_body in H.
  assert (K : transparent (srt_type s) = true -> srt_type s <> SRT_CALL_EXPR -> ck k b c sw s) by (intros T N; now apply ck_inside).
  destruct (srt_type s) eqn:T; cbn [transparent] in K; try (specialize (K eq_refl ltac:(discriminate))); try discriminate H.
  all: try solve [eapply lev_binary; [| exact K | exact D | exact H]; split; [cbn; intuition discriminate | reflexivity]].
  all: try solve [eapply lev_neg_not; [| exact K | exact D | exact H]; split; [cbn; intuition discriminate | reflexivity]].
  all: try solve [eapply lev_pointer_additive; [| exact K | exact D | exact H]; split; [cbn; intuition discriminate | reflexivity]].
  all: try solve [eapply lev_primary; exact H].
  all: try solve [eapply lev_incdec; [exact K | exact D | exact H]].
  all: try solve [eapply lev_list; [apply Forall_forall; exact K | exact D | exact H]].
  all: try solve [eapply lev_scope; [intros st1 cs1 st2 D1 H1; eapply lev_list; [apply Forall_forall; exact K | exact D1 | exact H1] | exact D | exact H]].
  all: try solve [eapply lev_logical; [exact K | exact D | exact H]].
  all: try solve [eapply lev_initializer; [exact K | exact D | exact H] | eapply lev_expression; [exact K | exact D | exact H] | eapply lev_assignment; [exact K | exact D | exact H] | eapply lev_conditional; [exact K | exact D | exact H]
    | eapply lev_pointer_diff; [exact K | exact D | exact H] | eapply lev_address; [exact K | exact D | exact H] | eapply lev_indirection; [exact K | exact D | exact H] | eapply lev_positive; [exact K | exact D | exact H] | eapply lev_logical_not; [exact K | exact D | exact H] | eapply lev_tomember; [exact K | exact D | exact H]].
  all: try solve [eapply lev_tag; exact H | eapply lev_ident; exact H | eapply lev_string; exact H | eapply lev_call; [exact T | exact I | exact J | exact D | exact H] | eapply lev_switch; [exact T | exact I | exact J | exact D | exact H] | eapply lev_while; [exact T | exact I | exact J | exact D | exact H]].
  all: destruct s as [t d p ss]; cbn in T; subst t; cbn in I.
  all: try contradiction.
  all: cbn in J.
  all: assert (JF : Forall (calm k) ss) by (apply inside_all; exact J); rewrite Forall_forall in JF.
  - destruct I as [F I]. eapply lev_init_decl; [exact F | | exact D | exact H]. intros x Hx. rewrite inside_all, Forall_forall in I. split; [now apply I | now apply JF].
  - destruct I as [F I]. subst sw. eapply lev_case; [| exact D | exact H]. intros x Hx. rewrite inside_all, Forall_forall in I. split; [now apply I | now apply JF].
  - destruct I as [F I]. subst sw. eapply lev_default_stmt; [| exact D | exact H]. intros x Hx. rewrite inside_all, Forall_forall in I. split; [now apply I | now apply JF].
  - injection H as <- <-. apply lev_jmp. right. now left.
  - injection H as <- <-. apply lev_jmp. now left.
  - destruct I as [F I]. eapply lev_return; [exact F | | exact D | exact H]. intros x Hx. rewrite inside_all, Forall_forall in I. split; [now apply I | now apply JF].
  - injection H as <- <-. apply lev_still; [constructor | reflexivity | apply same_refl].
  - unfold gen_if_else_stmt in H. destruct (_ =? 2)%nat; [eapply lev_if | eapply lev_if_else]; eauto.
  - destruct ss as [| i [| e [| u [| body [|]]]]]; try contradiction. destruct I as (I1 & I2 & I3 & I4). eapply lev_scope; [| exact D | exact H].
    intros st1 cs1 st2 D1 H1. refine (lev_for _ _ _ _ _ _ _ _ _ _ _ _ _ _ I1 I2 I3 I4 _ _ _ _ D1 H1); apply JF; cbn; tauto.
Qed.
End Lev.
Theorem gen_lev : forall fuel k b c sw od s st cs st', inside b c sw s -> calm k s -> deep c st -> gen fuel od s st = Ok (cs, st') -> lev k b c sw st cs st'.
Proof.
  induction fuel as [| f IH]; intros k b c sw od s st cs st' I J D H; [discriminate |]. exact (lev_body (gen f) (gen_lab f) IH _ _ _ _ _ _ _ _ _ I J D H).
Qed.
