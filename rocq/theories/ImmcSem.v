(** What the intermediate code means: a machine with unboundedly many registers, of which each holds a value
    of a definite size. Reading a register in another size, or before it is written, is an error. *)
From Verif Require Import Base ImmcModel X64Isa OpSpec X64Decode CSem.
Open Scope Z_scope.

(** Registers hold bit patterns of a size; [i_args] are the argument slots of the calls being prepared, innermost
    first; [i_ret] is the value to be returned *)
Record istate := mkist {
  i_regs : Z -> option (size * Z);
  i_args : list (Z -> option (size * Z));
  i_ret : option (size * Z);
  i_world : world
}.
Definition upd {A} (f : Z -> A) (k : Z) (v : A) : Z -> A := fun j => if j =? k then v else f j.
Definition set_reg (r : Z) (s : size) (x : Z) (q : istate) : istate :=
  mkist (upd (i_regs q) r (Some (s, x))) (i_args q) (i_ret q) (i_world q).
Definition set_world (W : world) (q : istate) : istate := mkist (i_regs q) (i_args q) (i_ret q) W.
Definition set_args (l : list (Z -> option (size * Z))) (q : istate) : istate := mkist (i_regs q) l (i_ret q) (i_world q).
Definition set_ret (v : option (size * Z)) (q : istate) : istate := mkist (i_regs q) (i_args q) v (i_world q).

Inductive iout := INext (q : istate) | IGoto (n : name) (q : istate) | IDone (q : istate) | IStuck.

Section Sem.
Variables (call : caller) (lab : name -> option Z) (frame : Z) (params : list (size * Z)).

(** the value of a register or literal *)
Definition ivalue (q : istate) (o : ope) : option Z :=
  match o with
  | IMMC_OPERAND_REG sf r =>
      match suffix_size sf, i_regs q (reg_id r) with
      | Some s, Some (s', x) => if size_eqb s s' then Some (interp (reg_unsigned r) s x) else None
      | _, _ => None
      end
  | IMMC_OPERAND_INT _ i => Some (lit_value i)
  | _ => None
  end.
(** the address a memory operand denotes *)
Definition iaddress (q : istate) (o : ope) : option Z :=
  match o with
  | IMMC_OPERAND_PTR r => match i_regs q (reg_id r) with Some (S8, x) => Some x | _ => None end
  | IMMC_OPERAND_MEM z => Some (low S8 (frame - z))
  | IMMC_OPERAND_LABEL n => lab n
  | _ => None
  end.
Definition is_memory (o : ope) : bool :=
  match o with IMMC_OPERAND_PTR _ | IMMC_OPERAND_MEM _ | IMMC_OPERAND_LABEL _ => true | _ => false end.
(** put the low bytes of [v] into the destination register *)
Definition put_result (d : ope) (v : Z) (q : istate) : iout :=
  match d with
  | IMMC_OPERAND_REG sf r =>
      match suffix_size sf with Some s => INext (set_reg (reg_id r) s (low s v) q) | None => IStuck end
  | _ => IStuck
  end.
(** the slots 0, ..., n-1 *)
Fixpoint collect_args (slots : Z -> option (size * Z)) (n : nat) (k : Z) : option (list (size * Z)) :=
  match n with
  | O => Some []
  | S n => match slots k, collect_args slots n (k + 1) with Some v, Some r => Some (v :: r) | _, _ => None end
  end.

Definition istep (c : immc) (q : istate) : iout :=
  match c with
  | IMMC_LABEL _ _ _ => INext q
  | IMMC_INST IMMC_INST_LOAD (Some d) (Some f) None =>
      if is_memory f then
        match operand_size d, iaddress q f with
        | Some s, Some a => match load (w_mem (i_world q)) s a with Some x => put_result d x q | None => IStuck end
        | _, _ => IStuck
        end
      else match ivalue q f with Some v => put_result d v q | None => IStuck end
  | IMMC_INST IMMC_INST_ADDR (Some d) (Some f) None =>
      match iaddress q f with Some a => put_result d a q | None => IStuck end
  | IMMC_INST IMMC_INST_STORE (Some d) (Some f) None =>
      match iaddress q d, operand_size f, ivalue q f with
      | Some a, Some s, Some v =>
          match store (w_mem (i_world q)) s a v with
          | Some m => INext (set_world (set_wmem (i_world q) m) q)
          | None => IStuck
          end
      | _, _, _ => IStuck
      end
  | IMMC_INST IMMC_INST_STR (Some d) (Some (IMMC_OPERAND_STR l)) None =>
      match iaddress q d with
      | Some a =>
          match put_chars (w_mem (i_world q)) a l with
          | Some m => INext (set_world (set_wmem (i_world q) m) q)
          | None => IStuck
          end
      | None => IStuck
      end
  | IMMC_INST IMMC_INST_LDARG (Some d) (Some (IMMC_OPERAND_ARG sf k)) None =>
      match iaddress q d, suffix_size sf, nth_error params (Z.to_nat (reg_id k)) with
      | Some a, Some s, Some (s', x) =>
          if size_eqb s s' && (0 <=? reg_id k) then
            match store (w_mem (i_world q)) s a x with
            | Some m => INext (set_world (set_wmem (i_world q) m) q)
            | None => IStuck
            end
          else IStuck
      | _, _, _ => IStuck
      end
  | IMMC_INST IMMC_INST_STARG (Some (IMMC_OPERAND_ARG _ k)) (Some f) None =>
      match operand_size f, ivalue q f, i_args q with
      | Some s, Some v, slots :: r => INext (set_args (upd slots (reg_id k) (Some (s, low s v)) :: r) q)
      | _, _, _ => IStuck
      end
  | IMMC_INST IMMC_INST_STRET None (Some f) None =>
      match operand_size f, ivalue q f with
      | Some s, Some v => INext (set_ret (Some (s, low s v)) q)
      | _, _ => IStuck
      end
  | IMMC_INST IMMC_INST_PREP None (Some _) None => INext (set_args ((fun _ => None) :: i_args q) q)
  | IMMC_INST IMMC_INST_CLEAN None (Some _) None =>
      match i_args q with _ :: r => INext (set_args r q) | [] => IStuck end
  | IMMC_INST IMMC_INST_CALL d (Some f) (Some (IMMC_OPERAND_INT _ n)) =>
      match iaddress q f, i_args q with
      | Some a, slots :: _ =>
          match collect_args slots (Z.to_nat (lit_value n)) 0 with
          | Some vs =>
              match call a vs (i_world q) with
              | Ok (x, W) => match d with None => INext (set_world W q) | Some d => put_result d x (set_world W q) end
              | _ => IStuck
              end
          | None => IStuck
          end
      | _, _ => IStuck
      end
  | IMMC_INST IMMC_INST_ENTER None (Some _) None => INext q
  | IMMC_INST IMMC_INST_LEAVE None (Some _) None => IDone q
  | IMMC_INST IMMC_INST_JMP (Some (IMMC_OPERAND_LABEL n)) None None => IGoto n q
  | IMMC_INST ((IMMC_INST_NEG | IMMC_INST_NOT) as t) (Some d) (Some f) None =>
      match ivalue q f with
      | Some a => match unop_spec t a with Some v => put_result d v q | None => IStuck end
      | None => IStuck
      end
  | IMMC_INST ((IMMC_INST_SETEQ | IMMC_INST_SETNEQ | IMMC_INST_SETLT | IMMC_INST_SETGT | IMMC_INST_SETLEQ | IMMC_INST_SETGEQ) as t)
      (Some d) (Some f) (Some g) =>
      match common f g, ivalue q f, ivalue q g with
      | Some s, Some a, Some b =>
          match compare t (operand_unsigned f) s a b with Some r => put_result d (if r then 1 else 0) q | None => IStuck end
      | _, _, _ => IStuck
      end
  | IMMC_INST ((IMMC_INST_JEQ | IMMC_INST_JNEQ | IMMC_INST_JGT | IMMC_INST_JGEQ | IMMC_INST_JLT | IMMC_INST_JLEQ) as t)
      (Some (IMMC_OPERAND_LABEL n)) (Some f) (Some g) =>
      match common f g, ivalue q f, ivalue q g with
      | Some s, Some a, Some b =>
          match compare t (operand_unsigned f) s a b with Some r => if r then IGoto n q else INext q | None => IStuck end
      | _, _, _ => IStuck
      end
  | IMMC_INST ((IMMC_INST_SAL | IMMC_INST_SAR) as t) (Some d) (Some f) (Some g) =>
      match common f g, ivalue q f, ivalue q g with
      | Some s, Some a, Some b =>
          match binop t (operand_unsigned f) s a b with Some r => put_result d (interp (operand_unsigned d) s r) q | None => IStuck end
      | _, _, _ => IStuck
      end
  | IMMC_INST t (Some d) (Some f) (Some g) =>
      match common f g, ivalue q f, ivalue q g with
      | Some s, Some a, Some b =>
          match binop t (operand_unsigned d) s a b with Some r => put_result d (interp (operand_unsigned d) s r) q | None => IStuck end
      | _, _, _ => IStuck
      end
  | _ => IStuck
  end.

(** position of a label *)
Fixpoint label_at (n : name) (code : list immc) : option nat :=
  match code with
  | [] => None
  | IMMC_LABEL _ _ m :: r => if name_eqb n m then Some O else option_map S (label_at n r)
  | _ :: r => option_map S (label_at n r)
  end.
Inductive ires := IAt (pc : nat) (q : istate) | IEnd (q : istate) | IWrong.
Definition imove (code : list immc) (pc : nat) (q : istate) : ires :=
  match nth_error code pc with
  | None => IWrong
  | Some c =>
      match istep c q with
      | INext q => IAt (S pc) q
      | IGoto n q => match label_at n code with Some k => IAt k q | None => IWrong end
      | IDone q => IEnd q
      | IStuck => IWrong
      end
  end.
(** running at most [fuel] instructions *)
Fixpoint irun (fuel : nat) (code : list immc) (pc : nat) (q : istate) : ires :=
  match fuel with
  | O => IAt pc q
  | S n => match imove code pc q with IAt pc q => irun n code pc q | r => r end
  end.
(** running from one place to another *)
Inductive reaches (code : list immc) : nat -> istate -> nat -> istate -> Prop :=
| reaches_here pc q : reaches code pc q pc q
| reaches_step pc q pc1 q1 pc2 q2 :
    imove code pc q = IAt pc1 q1 -> reaches code pc1 q1 pc2 q2 -> reaches code pc q pc2 q2.
End Sem.
