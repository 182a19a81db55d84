(** A check that the functions of a program have small frames, save at most one register, and have few arguments *)
From Verif Require Import Base SrtModel X64Model CallSpec.
Local Open Scope Z_scope.

Fixpoint leading_pushes (l : list x64) : nat := match l with X64_INST X64_INST_PUSHX _ None :: r => S (leading_pushes r) | _ => O end.
Definition small_frame (l : list x64) : bool :=
  match l with
  | X64_INST X64_INST_SUBX (Some (X64_OPERAND_INT _ i)) _ :: r => (sval i <? 2 ^ 31) && (leading_pushes r <=? 1)%nat
  | _ => (leading_pushes l <=? 1)%nat
  end.
Fixpoint small_frames (X : list x64) : bool :=
  match X with
  | X64_LABEL X64_LABEL_FUNCTION _ _ :: r => small_frame (skipn 2 r) && small_frames r
  | _ :: r => small_frames r
  | [] => true
  end.
Fixpoint few_argumentsb (s : srt) : bool :=
  let 'Srt t _ _ cs := s in
  forallb few_argumentsb cs && match t, cs with SRT_CALL_EXPR, [_; Srt _ _ _ args] => Z.of_nat (length args) <? 2 ^ 31 | _, _ => true end.
