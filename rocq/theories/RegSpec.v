(** Control flow and liveness of registers in intermediate code *)
From Verif Require Import Base ImmcModel ImmcSem RegallocModel.
Open Scope Z_scope.

(** the registers an instruction reads, and the one it writes *)
Definition operand_register (o : option ope) : list Z :=
  match o with Some (IMMC_OPERAND_REG _ r) | Some (IMMC_OPERAND_PTR r) => [reg_id r] | _ => [] end.
Definition reads (c : immc) : list Z :=
  match c with
  | IMMC_INST _ d f g => operand_register f ++ operand_register g ++ match d with Some (IMMC_OPERAND_PTR r) => [reg_id r] | _ => [] end
  | _ => []
  end.
Definition writes (c : immc) : option Z :=
  match c with IMMC_INST _ (Some (IMMC_OPERAND_REG _ r)) _ _ => Some (reg_id r) | _ => None end.
(** where control goes: to a label, to the next instruction *)
Definition goes_to (c : immc) : option name :=
  match c with
  | IMMC_INST (IMMC_INST_JMP | IMMC_INST_JEQ | IMMC_INST_JNEQ | IMMC_INST_JGT | IMMC_INST_JGEQ | IMMC_INST_JLT | IMMC_INST_JLEQ) (Some (IMMC_OPERAND_LABEL n)) _ _ => Some n
  | _ => None
  end.
Definition goes_on (c : immc) : bool := match c with IMMC_INST (IMMC_INST_JMP | IMMC_INST_LEAVE) _ _ _ => false | _ => true end.
Definition follows (fn : list immc) (p q : nat) : Prop :=
  exists c, nth_error fn p = Some c /\ ((goes_on c = true /\ q = S p) \/ (exists n, goes_to c = Some n /\ label_at n fn = Some q)).

(** [r] is live before instruction [p]: some path from there reads it before writing it *)
Inductive live (fn : list immc) : nat -> Z -> Prop :=
| live_read p c r : nth_error fn p = Some c -> In r (reads c) -> live fn p r
| live_later p q c r : nth_error fn p = Some c -> writes c <> Some r -> follows fn p q -> live fn q r -> live fn p r.

(** JLT and JLEQ *)
Definition less_jump (c : immc) : bool := match c with IMMC_INST (IMMC_INST_JLT | IMMC_INST_JLEQ) _ _ _ => true | _ => false end.
Definition ends_in_label (fn : list immc) : bool := match last_error fn with Some (IMMC_LABEL _ _ _) => true | _ => false end.

(** nothing is live where a backward jump goes *)
Definition fresh_loops (fn : list immc) : Prop :=
  forall p c n q r, nth_error fn p = Some c -> goes_to c = Some n -> label_at n fn = Some q -> (q <= p)%nat -> ~ live fn q r.
(** Code the allocator is meant for. It stops at its end and jumps within itself. A register is live only after an
    instruction that writes it, in the order of the text. An instruction that writes a register while another one is
    live writes one that is live afterwards, or one above all those written before. Either no jump compares with less or less-or-equal, or no loop carries a register. *)
Record orderly (fn : list immc) : Prop := {
  or_stops : forall c, last_error fn = Some c -> goes_on c = false;
  or_local : forall c n, In c fn -> goes_to c = Some n -> label_at n fn <> None;
  or_written : forall p r, live fn p r -> exists q c, (q < p)%nat /\ nth_error fn q = Some c /\ writes c = Some r;
  or_needed : forall p c s r, nth_error fn p = Some c -> writes c = Some s -> live fn (S p) r -> r <> s ->
    live fn (S p) s \/ forall q c' t, (q < p)%nat -> nth_error fn q = Some c' -> writes c' = Some t -> t < s;
  or_loops : (forall c, In c fn -> less_jump c = false) \/ fresh_loops fn }.
(** the functions of a program: from a function label to the next label of a function or variable *)
Definition external (c : immc) : bool := match c with IMMC_LABEL (IMMC_LABEL_FUNCTION | IMMC_LABEL_VARIABLE) _ _ => true | _ => false end.
Definition function_in (C fn : list immc) : Prop :=
  exists A B, C = A ++ fn ++ B /\ (exists v n body, fn = IMMC_LABEL IMMC_LABEL_FUNCTION v n :: body /\ Forall (fun c => external c = false) body) /\ (forall b B', B = b :: B' -> external b = true).
Definition orderly_program (C : list immc) : Prop := forall fn, function_in C fn -> orderly fn.
