(** C44: functions in a program, and their instructions with the registers renamed *)
From Verif Require Import Base ImmcModel RegSpec.
Local Open Scope Z_scope.

(** [fn], with the code [B] after it, is the code of one function *)
Definition is_function (fn B : list immc) : Prop :=
  (exists v m body, fn = IMMC_LABEL IMMC_LABEL_FUNCTION v m :: body /\ Forall (fun c => external c = false) body)
  /\ (forall b B', B = b :: B' -> external b = true).
(** the instruction with its registers renamed *)
Definition renamed_operand (place : Z -> Z) (o : option ope) : option ope :=
  match o with
  | Some (IMMC_OPERAND_REG s r) => Some (IMMC_OPERAND_REG s (mkireg (place (reg_id r)) (reg_unsigned r)))
  | Some (IMMC_OPERAND_PTR r) => Some (IMMC_OPERAND_PTR (mkireg (place (reg_id r)) (reg_unsigned r)))
  | _ => o
  end.
Definition renamed (place : Z -> Z) (c : immc) : immc :=
  match c with
  | IMMC_INST t d f g => IMMC_INST t (renamed_operand place d) (renamed_operand place f) (renamed_operand place g)
  | _ => c
  end.
