(** A check that the calls of a function are as SimCallSpec wants them and its instructions fit *)
From Verif Require Import Base ImmcModel X64Model X64genModel X64Decode RegallocModel ImmcSem RegSpec RegCheck CallSpec MarkSpec OpSpec SimSpec SimCallSpec SimCheck X64Isa.
Local Open Scope Z_scope.

Definition call_fitsb (c : immc) : bool :=
  match c with
  | IMMC_INST (IMMC_INST_PREP | IMMC_INST_CLEAN) _ _ _ => true
  | IMMC_INST IMMC_INST_STARG _ (Some f) _ => register_or_literalb f && encodableb S8 f && with_size (operand_size f) (fun _ => true)
  | IMMC_INST IMMC_INST_CALL d _ _ => match d with Some d => registerb d && with_size (operand_size d) (fun _ => true) | None => true end
  | _ => false
  end.
Fixpoint fits_all_with (n : nat) (l l' : list immc) : bool :=
  match n, l, l' with
  | O, _, _ => true
  | S n, c :: r, c' :: r' => (if call_part c then call_fitsb c' else fitsb r r' c c') && fits_all_with n r r'
  | _, _, _ => false
  end.
Definition outsideb (p : option phase) : bool := match p with Some Outside => true | _ => false end.
Definition with_callsb (fn fn' : list immc) : bool :=
  match fn with
  | IMMC_LABEL IMMC_LABEL_FUNCTION _ n :: IMMC_INST IMMC_INST_ENTER None size None :: r =>
      match rev r with
      | IMMC_INST IMMC_INST_LEAVE None size' None :: IMMC_LABEL IMMC_LABEL_NORMAL _ stop :: m =>
          let (params, body) := span_arguments (rev m) in
          dec (ope_eq size size') && forallb (fun c => negb (loads_argument c)) body && returns_jump stop body
          && forallb (fun c => match goes_to c with Some t => negb (name_eqb t n) | None => true end) body
          && forallb (fun c => match writes c with Some w => 0 <=? w | None => true end) body
          && outsideb (phase_after Outside body)
          && fits_all_with (length (params ++ body)) (skipn 2 fn) (skipn 2 fn')
      | _ => false
      end
  | _ => false
  end.
Definition modest_functionb (C code : list immc) (nm : name) : bool :=
  match label_at nm C with
  | Some p =>
      match skipn p C with
      | (IMMC_LABEL IMMC_LABEL_FUNCTION _ _ as c) :: r => let fn := c :: fst (span_external r) in with_callsb fn (firstn (length fn) (skipn p code))
      | _ => false
      end
  | None => false
  end.
