(** The programs whose code keeps its registers in order. *)
From Verif Require Import Base SrtModel GenSpec.

(** The pointer that is read or written through, or called, is computed last: the generator takes it from the register written last. *)
Definition pointer_last (e : srt) : bool :=
  match e with
  | Srt (SRT_INDIR_EXPR | SRT_ASSIGN_EXPR | SRT_CALL_EXPR | SRT_PREINC_EXPR | SRT_PREDEC_EXPR | SRT_POSTINC_EXPR | SRT_POSTDEC_EXPR) _ _ (p :: _) => computed_last p
  | _ => true
  end.
Fixpoint pointers_last (s : srt) : bool := let 'Srt _ _ _ cs := s in pointer_last s && forallb pointers_last cs.
