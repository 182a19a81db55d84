(** The check of SimCallCheck is right *)
From Coq Require Import Lia ZifyBool.
From Verif Require Import Base ImmcModel X64Model X64genModel X64Decode RegallocModel ImmcSem TypeProofs RegSpec RegCheck RegProofs2 RegProofs6 CallSpec MarkSpec OpSpec SimSpec SimCallSpec SimCheck SimCheckProofs SimCallCheck X64Isa.
Local Open Scope Z_scope.

Lemma call_fits_ok c : call_fitsb c = true -> call_fits c.
Proof.
  destruct c as [t d f g | | |]; try discriminate. destruct t; try discriminate; cbn [call_fitsb call_fits]; auto; intros H.
  - destruct f as [f |]; [| discriminate H]. checks. repeat split; auto; congruence.
  - destruct d as [d |]; [| exact Logic.I]. checks. split; [assumption | congruence].
Qed.
Lemma fits_with_ok : forall n l l', fits_all_with n l l' = true -> forall p c c', (p < n)%nat -> nth_error l p = Some c -> nth_error l' p = Some c' -> if call_part c then call_fits c' else fits (skipn (S p) l) (skipn (S p) l') c c'.
Proof.
  induction n as [| n IH]; intros l l' H p c c' Lp E E'; [lia |]. destruct l as [| x l]; [discriminate H |]. destruct l' as [| x' l']; [discriminate H |]. cbn [fits_all_with] in H. apply andb_true_iff in H as [H1 H2].
  destruct p as [| p]; [injection E as <-; injection E' as <-; destruct (call_part x); [now apply call_fits_ok | now apply fits_ok] |]. apply (IH _ _ H2 p); auto. lia.
Qed.
Lemma with_calls_ok fn fn' : with_callsb fn fn' = true -> with_calls fn fn'.
Proof.
  unfold with_callsb. intros H. destruct fn as [| [| | | [] v n] [| [t d size g | | |] r]]; try discriminate H. destruct t; try discriminate H. destruct d; try discriminate H. destruct g; try discriminate H.
  destruct (rev r) as [| [t d size' g | | |] [| [| | | [] v' stop] m]] eqn:Er; try discriminate H; destruct t; try discriminate H; destruct d; try discriminate H; destruct g; try discriminate H.
  destruct (span_arguments (rev m)) as [params body] eqn:Sp. destruct (span_arguments_ok _ _ _ Sp) as (Em & Fp). bools. subst size'.
  assert (R : r = params ++ body ++ [IMMC_LABEL IMMC_LABEL_NORMAL v' stop; IMMC_INST IMMC_INST_LEAVE None size None]).
  { rewrite <- (rev_involutive r), Er. cbn [rev]. rewrite Em, <- !app_assoc. reflexivity. }
  exists v, n, size, params, body, v', stop. split; [now rewrite R |]. split; [exact Fp |]. split; [apply Forall_forall; intros c I; match goal with H : forallb (fun c => negb (loads_argument c)) body = true |- _ => rewrite forallb_forall in H; specialize (H _ I) end; bools; assumption |].
  split; [now apply returns_ok |]. split; [| split; [| split]].
  - intros c I. match goal with H : forallb (fun c => match goes_to c with _ => _ end) body = true |- _ => rewrite forallb_forall in H; specialize (H _ I) end. intros E. rewrite E in *. bools. assert (name_eqb n n = true) by (apply name_eqb_eq; reflexivity). congruence.
  - intros c w I E. match goal with H : forallb (fun c => match writes c with _ => _ end) body = true |- _ => rewrite forallb_forall in H; specialize (H _ I) end. rewrite E in *. lia.
  - match goal with H : outsideb _ = true |- _ => unfold outsideb in H; destruct (phase_after Outside body) as [[] |]; try discriminate H; reflexivity end.
  - intros p c c' E E'. assert (Lp : (p < length (params ++ body))%nat) by (apply nth_error_Some; congruence). match goal with H : fits_all_with _ _ _ = true |- _ => assert (X := fits_with_ok _ _ _ H p c c' Lp) end.
    destruct fn' as [| x0 [| x1 fn']]; [destruct p; discriminate E' | destruct p; discriminate E' |]. cbn [skipn] in X. apply X; [rewrite R, app_assoc, nth_error_app1 by exact Lp; exact E | exact E'].
Qed.
Lemma modest_function_ok C code nm : modest_functionb C code nm = true -> modest_function C code nm.
Proof.
  unfold modest_functionb. intros H. destruct (label_at nm C) as [p |] eqn:L; [| discriminate H]. destruct (label_at_nth _ _ _ L) as (t & v & E).
  assert (Lp : (p < length C)%nat) by (apply nth_error_Some; congruence). assert (LA : length (firstn p C) = p) by (apply firstn_length_le; lia).
  assert (EC := firstn_skipn p C). destruct (skipn p C) as [| c r] eqn:Es; [discriminate H |]. assert (Ec : c = IMMC_LABEL t v nm). { rewrite <- EC, nth_error_app2, LA, Nat.sub_diag in E by lia. now injection E. }
  subst c. destruct t; try discriminate H. destruct (span_external r) as [a b] eqn:Sp. destruct (span_ok _ _ _ Sp) as (-> & Fa & Hb). cbn [fst] in H. cbv zeta in H.
  exists (firstn p C), (IMMC_LABEL IMMC_LABEL_FUNCTION v nm :: a), b, v. split; [rewrite <- EC at 1; reflexivity |]. split; [split; [exists v, nm, a; auto | exact Hb] |]. split; [reflexivity |]. rewrite LA. now apply with_calls_ok.
Qed.
