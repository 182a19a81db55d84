(** C29: labels and jumps of the intermediate code *)
From Verif Require Import Base ImmcModel.
Local Open Scope Z_scope.

Definition label_of (c : immc) : list name := match c with IMMC_LABEL _ _ n => [n] | _ => [] end.
Definition labels (cs : list immc) : list name := flat_map label_of cs.
(** functions and variables begin with these *)
Definition entry (c : immc) : Prop := exists v n, c = IMMC_LABEL IMMC_LABEL_FUNCTION v n \/ c = IMMC_LABEL IMMC_LABEL_VARIABLE v n.
Definition jumps : list insttype := [
  IMMC_INST_JMP; IMMC_INST_JEQ; IMMC_INST_JNEQ; IMMC_INST_JGT; IMMC_INST_JGEQ; IMMC_INST_JLT; IMMC_INST_JLEQ].
(** the target of a jump, if [c] is one *)
Definition jump (c : immc) (target : option ope) : Prop := exists t f g, In t jumps /\ c = IMMC_INST t target f g.
(** every jump goes to a label of the function it is in: no entry lies between the two *)
Definition jumps_resolved (cs : list immc) : Prop :=
  forall c1 j c2 target, cs = c1 ++ j :: c2 -> jump j target ->
  exists before e b1 b2 after l, c1 = before ++ e :: b1 /\ c2 = b2 ++ after /\ entry e
    /\ (forall c, In c (b1 ++ b2) -> ~ entry c) /\ target = Some (IMMC_OPERAND_LABEL l) /\ In l (labels (b1 ++ b2)).
(** the names declared at file scope *)
Definition declared_name (d : srt) : list name := match d with Srt _ _ (SPName n) _ => [n] | _ => [] end.
Definition file_names (s : srt) : list name :=
  flat_map (fun item =>
    match item with
    | Srt SRT_FUNC_DEF _ _ (d :: _) => declared_name d
    | Srt SRT_DECL_LIST _ _ ds => flat_map (fun x => match x with Srt _ _ _ (d :: _) => declared_name d | _ => [] end) ds
    | _ => []
    end) (srt_children s).
(** none of them begins with a dot *)
Definition plain_names (s : srt) : Prop := forall n r, In n (file_names s) -> n <> 46 :: r.
