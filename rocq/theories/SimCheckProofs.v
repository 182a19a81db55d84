(** The check of SimCheck is right *)
From Coq Require Import Lia ZifyBool.
From Verif Require Import Base ImmcModel X64Model X64genModel X64Decode RegallocModel ImmcSem TypeProofs RegSpec RegCheck RegProofs2 RegProofs6 CallSpec MarkSpec OpSpec SimSpec SimCheck X64Isa.
Local Open Scope Z_scope.

Lemma dec_ok {P : Prop} (d : {P} + {~ P}) : dec d = true -> P.
Proof. destruct d; [auto | discriminate]. Qed.
Lemma dec_no {P : Prop} (d : {P} + {~ P}) : dec d = false -> ~ P.
Proof. destruct d; [discriminate | auto]. Qed.
Ltac bools := repeat match goal with
  | H : _ && _ = true |- _ => apply andb_true_iff in H as [? ?]
  | H : negb _ = true |- _ => apply negb_true_iff in H
  | H : dec _ = true |- _ => apply dec_ok in H
  | H : dec _ = false |- _ => apply dec_no in H
  end.
Lemma register_ok o : registerb o = true -> is_register o.
Proof. destruct o; try discriminate. exact (fun _ => Logic.I). Qed.
Lemma register_or_literal_ok o : register_or_literalb o = true -> is_register_or_literal o.
Proof. destruct o; try discriminate; exact (fun _ => Logic.I). Qed.
Lemma widens_ok u a b : widensb u a b = true -> widens u a b.
Proof. unfold widensb. intros H (-> & -> & ->). discriminate H. Qed.
Lemma widens_operand_ok o z : widens_operandb o z = true -> widens_operand o z.
Proof. unfold widens_operandb, widens_operand. destruct o; auto. destruct (operand_size _); [apply widens_ok | auto]. Qed.
Lemma encodable_ok s o : encodableb s o = true -> encodable s o.
Proof. unfold encodableb, encodable. destruct o; auto. Qed.
Lemma loadable_ok s o : loadableb o s = true -> loadable o s.
Proof. unfold loadableb, loadable. destruct o; auto. Qed.
Lemma sources_ok f g s : sourcesb f g s = true -> sources f g s.
Proof.
  unfold sourcesb, sources. intros H. bools. split; [now apply register_ok |]. split; [now apply register_or_literal_ok |]. split; [assumption |]. split; [now apply widens_operand_ok |]. split; [now apply widens_operand_ok |]. split; [now apply encodable_ok |].
  intros E. match goal with H : _ || _ = true |- _ => apply orb_true_iff in H as [H | H] end; bools; [contradiction | assumption].
Qed.
Lemma destination_ok d s : destinationb d s = true -> destination d s.
Proof. unfold destinationb, destination. intros H. bools. split; [now apply register_ok |]. destruct (operand_size d); [now apply widens_ok | discriminate]. Qed.
Lemma accumulator_ok f g : accumulator_freeb f g = true -> accumulator_free f g.
Proof.
  unfold accumulator_freeb, accumulator_free. intros H (A & B & C & D). rewrite A, B, D in H. destruct g; try destruct C. cbn [registerb] in H. destruct (osize_eq (Some S8) (Some S8)); [| congruence]. destruct (osize_eq (Some S4) (Some S4)); [| congruence]. discriminate H.
Qed.
Lemma memb_no r l : memb r l = false -> ~ In r l.
Proof. intros H I. unfold memb in H. assert (X : existsb (Z.eqb r) l = true) by (apply existsb_exists; exists r; split; [exact I | apply Z.eqb_refl]). congruence. Qed.
Lemma not_read_ok r l : not_readb r l = true -> not_read r l.
Proof. unfold not_readb, not_read. intros H c I. rewrite forallb_forall in H. specialize (H _ I). bools. now apply memb_no. Qed.
Lemma used_up_ok c l : used_upb c l = true -> used_up c l.
Proof.
  unfold used_upb, used_up. destruct c as [t d f g | | |]; auto. destruct f as [[] |]; auto. intros H. apply orb_true_iff in H as [H | H]; [left | right; now apply not_read_ok]. destruct (writes _); [| discriminate H]. f_equal. lia.
Qed.
Lemma with_size_ok o p : with_size o p = true -> exists s, o = Some s /\ p s = true.
Proof. destruct o as [s |]; [| discriminate]. eauto. Qed.
Ltac checks := repeat (bools; match goal with
  | H : with_size _ _ = true |- _ => apply with_size_ok in H as (? & ? & H); cbn beta in H
  | H : registerb _ = true |- _ => apply register_ok in H
  | H : register_or_literalb _ = true |- _ => apply register_or_literal_ok in H
  | H : sourcesb _ _ _ = true |- _ => apply sources_ok in H
  | H : destinationb _ _ = true |- _ => apply destination_ok in H
  | H : accumulator_freeb _ _ = true |- _ => apply accumulator_ok in H
  | H : used_upb _ _ = true |- _ => apply used_up_ok in H
  | H : loadableb _ _ = true |- _ => apply loadable_ok in H
  | H : encodableb _ _ = true |- _ => apply encodable_ok in H
  | H : widens_operandb _ _ = true |- _ => apply widens_operand_ok in H
  end); bools.
Lemma fits_ok after after' c c' : fitsb after after' c c' = true -> fits after after' c c'.
Proof.
  unfold fitsb, fits. destruct c' as [t d f g | | | t v n]; try discriminate; [| destruct t; auto; discriminate].
  destruct t; try discriminate.
  all: try (destruct d as [d |], f as [f |], g as [g |]; try discriminate; try (destruct d; try discriminate); intros H; checks; eauto 10; fail).
  all: destruct d as [d |], f as [f |], g as [g |]; try discriminate; intros H.
  all: try (checks; repeat split; eauto; congruence).
  1: { checks. split; [assumption |]. eexists. split; [eassumption |]. destruct f; auto; checks; (split; [assumption |]; split; [congruence | split; assumption]). }
  1-4: destruct d; try discriminate H; destruct f; try discriminate H; bools; assumption.
  all: checks; split; [eexists; repeat (split; [eassumption |]); assumption |]; split; [assumption |]; split; [| split; [| assumption]].
  all: try (match goal with H : _ || _ = true |- _ => apply orb_true_iff in H as [H | H] end; [left; now apply register_ok | right; now apply not_read_ok]).
  all: intros (D1 & D2); match goal with H : in_dxb _ && in_dxb _ = false |- _ => unfold in_dxb, in_dx in *; rewrite D1, D2 in H; discriminate H end.
Qed.
Lemma fits_all_ok : forall n l l', fits_all n l l' = true -> forall p c c', (p < n)%nat -> nth_error l p = Some c -> nth_error l' p = Some c' -> fits (skipn (S p) l) (skipn (S p) l') c c'.
Proof.
  induction n as [| n IH]; intros l l' H p c c' Lp E E'; [lia |]. destruct l as [| x l]; [discriminate H |]. destruct l' as [| x' l']; [discriminate H |]. cbn [fits_all] in H. apply andb_true_iff in H as [H1 H2].
  destruct p as [| p]; [injection E as <-; injection E' as <-; now apply fits_ok |]. apply (IH _ _ H2 p); auto. lia.
Qed.
Lemma returns_ok stop : forall l, returns_jump stop l = true -> forall b1 c b2, l = b1 ++ c :: b2 -> returns_value c = true -> exists b3, b2 = IMMC_INST IMMC_INST_JMP (Some (IMMC_OPERAND_LABEL stop)) None None :: b3.
Proof.
  induction l as [| x l IH]; intros H b1 c b2 E R; [destruct b1; discriminate E |]. cbn [returns_jump] in H. apply andb_true_iff in H as [H1 H2]. destruct b1 as [| y b1]; injection E as -> E; [| eapply IH; eauto].
  subst b2. rewrite R in H1. cbn [negb orb] in H1. destruct l as [| [t d f g | | |] l]; try discriminate H1. destruct t; try discriminate H1. destruct d as [[] |]; try discriminate H1. destruct f; [discriminate H1 |]. destruct g; [discriminate H1 |]. apply name_eqb_eq in H1. subst. eauto.
Qed.
Lemma span_arguments_ok : forall l a b, span_arguments l = (a, b) -> l = a ++ b /\ Forall (fun c => loads_argument c = true) a.
Proof.
  induction l as [| c l IH]; intros a b H; cbn [span_arguments] in H; [injection H as <- <-; auto |]. destruct (loads_argument c) eqn:L; [| injection H as <- <-; auto].
  destruct (span_arguments l) as [x y] eqn:E. injection H as <- <-. destruct (IH _ _ eq_refl) as (-> & F). split; [reflexivity | constructor; auto].
Qed.
Lemma leaf_ok fn fn' : leafb fn fn' = true -> leaf fn fn'.
Proof.
  unfold leafb. intros H. destruct fn as [| [| | | [] v n] [| [t d size g | | |] r]]; try discriminate H. destruct t; try discriminate H. destruct d; try discriminate H. destruct g; try discriminate H.
  destruct (rev r) as [| [t d size' g | | |] [| [| | | [] v' stop] m]] eqn:Er; try discriminate H; destruct t; try discriminate H; destruct d; try discriminate H; destruct g; try discriminate H.
  destruct (span_arguments (rev m)) as [params body] eqn:Sp. destruct (span_arguments_ok _ _ _ Sp) as (Em & Fp). bools. subst size'.
  assert (R : r = params ++ body ++ [IMMC_LABEL IMMC_LABEL_NORMAL v' stop; IMMC_INST IMMC_INST_LEAVE None size None]).
  { rewrite <- (rev_involutive r), Er. cbn [rev]. rewrite Em, <- !app_assoc. reflexivity. }
  exists v, n, size, params, body, v', stop. split; [now rewrite R |]. split; [exact Fp |]. split; [apply Forall_forall; intros c I; match goal with H : forallb (fun c => negb (loads_argument c)) body = true |- _ => rewrite forallb_forall in H; specialize (H _ I) end; bools; assumption |].
  split; [now apply returns_ok |]. split; [| split].
  - intros c I. match goal with H : forallb (fun c => match goes_to c with _ => _ end) body = true |- _ => rewrite forallb_forall in H; specialize (H _ I) end. intros E. rewrite E in *. bools. assert (name_eqb n n = true) by (apply name_eqb_eq; reflexivity). congruence.
  - intros c w I E. match goal with H : forallb (fun c => match writes c with _ => _ end) body = true |- _ => rewrite forallb_forall in H; specialize (H _ I) end. rewrite E in *. lia.
  - intros p c c' E E'. assert (Lp : (p < length (params ++ body))%nat) by (apply nth_error_Some; congruence). match goal with H : fits_all _ _ _ = true |- _ => assert (X := fits_all_ok _ _ _ H p c c' Lp) end.
    destruct fn' as [| x0 [| x1 fn']]; [destruct p; discriminate E' | destruct p; discriminate E' |]. cbn [skipn] in X. apply X; [rewrite R, app_assoc, nth_error_app1 by exact Lp; exact E | exact E'].
Qed.
Lemma leaf_function_ok C code nm : leaf_functionb C code nm = true -> leaf_function C code nm.
Proof.
  unfold leaf_functionb. intros H. destruct (label_at nm C) as [p |] eqn:L; [| discriminate H]. destruct (label_at_nth _ _ _ L) as (t & v & E).
  assert (Lp : (p < length C)%nat) by (apply nth_error_Some; congruence). assert (LA : length (firstn p C) = p) by (apply firstn_length_le; lia).
  assert (EC := firstn_skipn p C). destruct (skipn p C) as [| c r] eqn:Es; [discriminate H |]. assert (Ec : c = IMMC_LABEL t v nm). { rewrite <- EC, nth_error_app2, LA, Nat.sub_diag in E by lia. now injection E. }
  subst c. destruct t; try discriminate H. destruct (span_external r) as [a b] eqn:Sp. destruct (span_ok _ _ _ Sp) as (-> & Fa & Hb). cbn [fst] in H. cbv zeta in H.
  exists (firstn p C), (IMMC_LABEL IMMC_LABEL_FUNCTION v nm :: a), b, v. split; [rewrite <- EC at 1; reflexivity |]. split; [split; [exists v, nm, a; auto | exact Hb] |]. split; [reflexivity |]. rewrite LA. now apply leaf_ok.
Qed.
