(** The check of SimFrameCheck is right *)
From Coq Require Import Lia ZifyBool.
From Verif Require Import Base SrtModel X64Model CallSpec TypeProofs LabelProofs2 SimFrameCheck.
Local Open Scope Z_scope.

Lemma leading_saved saved r : (length saved <= leading_pushes (List.map (fun r => X64_INST X64_INST_PUSHX (quad r) None) saved ++ r))%nat.
Proof. induction saved as [| x l IH]; cbn [length List.map app leading_pushes]; lia. Qed.
Lemma small_prologue size saved r : small_frame (skipn 2 (prologue size saved ++ r)) = true -> size < 2 ^ 31 /\ (length saved <= 1)%nat.
Proof.
  unfold prologue. rewrite <- !app_assoc. cbn [app skipn]. destruct (size >? 0) eqn:E; cbn [app].
  - cbn [small_frame number]. intros H. apply andb_prop in H as (H1 & H2). cbn [sval] in H1. split; [lia |].
    match type of H2 with context [leading_pushes (_ ++ ?q)] => pose proof (leading_saved saved q) end. lia.
  - intros H. split; [lia |]. destruct saved as [| x [| y l]]; [cbn; lia | cbn; lia |].
    cbn [List.map app small_frame leading_pushes] in H. discriminate H.
Qed.
Lemma small_frames_at : forall before v n r, small_frames (before ++ X64_LABEL X64_LABEL_FUNCTION v n :: r) = true -> small_frame (skipn 2 r) = true.
Proof.
  induction before as [| c l IH]; intros v n r H.
  - cbn [app small_frames] in H. now apply andb_prop in H.
  - cbn [app small_frames] in H. apply (IH v n). destruct c as [t a b | t i | t s | t w m]; [exact H | exact H | exact H |]. destruct t; first [exact H | now apply andb_prop in H].
Qed.
Lemma small_frames_ok X : small_frames X = true -> forall F size saved body, x64_function X F -> function_code F size saved body -> size < 2 ^ 31 /\ (length saved <= 1)%nat.
Proof.
  intros H F size saved body (before & after & v & n & b & EX & _) (w & nm & EF). subst X F. cbn [app] in H.
  apply small_frames_at in H. rewrite <- !app_assoc in H. now apply small_prologue in H.
Qed.
Lemma few_arguments_ok : forall s, few_argumentsb s = true -> few_arguments s.
Proof.
  apply (srt_induction (fun s => few_argumentsb s = true -> few_arguments s)). intros t d p cs IH H. cbn [few_argumentsb] in H. apply andb_prop in H as (H1 & H2). cbn [few_arguments]. split.
  - clear H2. induction cs as [| c l IHl]; [exact I |]. cbn [forallb] in H1. apply andb_prop in H1 as (H1 & H3). inversion IH; subst. cbn [List.map fold_right]. split; auto.
  - destruct t; try exact I. destruct cs as [| ? [| [? ? ? args] [|]]]; try exact I. lia.
Qed.
