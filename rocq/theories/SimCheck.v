(** A check that a function of a program calls no others and its instructions fit (SimSpec) *)
From Verif Require Import Base ImmcModel X64Model X64genModel X64Decode RegallocModel ImmcSem RegSpec RegCheck CallSpec MarkSpec OpSpec SimSpec X64Isa.
Local Open Scope Z_scope.

Definition ope_eq (a b : option ope) : {a = b} + {a <> b}.
Proof. repeat decide equality. Defined.
Definition size_eq (a b : size) : {a = b} + {a <> b}.
Proof. decide equality. Defined.
Definition osize_eq (a b : option size) : {a = b} + {a <> b}.
Proof. repeat decide equality. Defined.
Definition oreg_eq (a b : option reg) : {a = b} + {a <> b}.
Proof. repeat decide equality. Defined.
Definition dec {P : Prop} (d : {P} + {~ P}) : bool := if d then true else false.

Definition registerb (o : ope) : bool := match o with IMMC_OPERAND_REG _ _ => true | _ => false end.
Definition register_or_literalb (o : ope) : bool := match o with IMMC_OPERAND_REG _ _ | IMMC_OPERAND_INT _ _ => true | _ => false end.
Definition widensb (u : bool) (from to : size) : bool := negb (u && dec (size_eq from S4) && dec (size_eq to S8)).
Definition widens_operandb (o : ope) (to : size) : bool :=
  match o, operand_size o with IMMC_OPERAND_REG _ r, Some z => widensb (reg_unsigned r) z to | _, _ => true end.
Definition encodableb (s : size) (o : ope) : bool := match o with IMMC_OPERAND_INT _ i => imm_fits s (lit_value i) | _ => true end.
Definition loadableb (o : ope) (s : size) : bool :=
  match o with IMMC_OPERAND_INT _ i => match s with S8 => imm64_fits (lit_value i) | _ => imm_fits s (lit_value i) end | _ => true end.
Definition sourcesb (f g : ope) (s : size) : bool :=
  registerb f && register_or_literalb g && dec (osize_eq (common f g) (Some s)) && widens_operandb f s && widens_operandb g s && encodableb s g
  && (negb (dec (oreg_eq (operand_reg f) (operand_reg g))) || dec (osize_eq (operand_size f) (operand_size g))).
Definition destinationb (d : ope) (s : size) : bool :=
  registerb d && match operand_size d with Some z => widensb (operand_unsigned d) s z | None => false end.
Definition accumulator_freeb (f g : ope) : bool :=
  negb (dec (osize_eq (operand_size f) (Some S8)) && dec (osize_eq (operand_size g) (Some S4)) && registerb g && negb (operand_unsigned g)).
Definition not_readb (r : Z) (l : list immc) : bool := forallb (fun c => negb (memb r (reads c))) l.
Definition used_upb (c : immc) (after : list immc) : bool :=
  match c with
  | IMMC_INST _ _ (Some (IMMC_OPERAND_REG _ r)) _ => match writes c with Some w => w =? reg_id r | None => false end || not_readb (reg_id r) after
  | _ => true
  end.
Definition in_dxb (o : ope) : bool := dec (oreg_eq (operand_reg o) (Some RDX)).
Definition with_size (o : option size) (p : size -> bool) : bool := match o with Some s => p s | None => false end.
Definition fitsb (after after' : list immc) (c c' : immc) : bool :=
  match c' with
  | IMMC_LABEL IMMC_LABEL_NORMAL _ _ => true
  | IMMC_INST IMMC_INST_JMP (Some (IMMC_OPERAND_LABEL _)) None None => true
  | IMMC_INST (IMMC_INST_JEQ | IMMC_INST_JNEQ | IMMC_INST_JGT | IMMC_INST_JGEQ | IMMC_INST_JLT | IMMC_INST_JLEQ)
      (Some (IMMC_OPERAND_LABEL _)) (Some f) (Some g) => with_size (common f g) (sourcesb f g)
  | IMMC_INST (IMMC_INST_ADD | IMMC_INST_SUB | IMMC_INST_AND | IMMC_INST_OR | IMMC_INST_XOR) (Some d) (Some f) (Some g) =>
      with_size (common f g) (fun s => sourcesb f g s && destinationb d s) && used_upb c after
  | IMMC_INST IMMC_INST_MUL (Some d) (Some f) (Some g) =>
      with_size (common f g) (fun s => sourcesb f g s && destinationb d s && negb (dec (size_eq s S1))) && accumulator_freeb f g && used_upb c after
  | IMMC_INST (IMMC_INST_DIV | IMMC_INST_MOD) (Some d) (Some f) (Some g) =>
      with_size (common f g) (fun s => sourcesb f g s && destinationb d s && negb (dec (size_eq s S1)) && loadableb g s) && accumulator_freeb f g && negb (in_dxb f && in_dxb g)
      && (registerb g || not_readb 6 after') && used_upb c after
  | IMMC_INST (IMMC_INST_NEG | IMMC_INST_NOT) (Some d) (Some f) None =>
      registerb d && register_or_literalb f && with_size (operand_size d) (fun s => dec (osize_eq (operand_size f) (Some s)) && loadableb f s) && used_upb c after
  | IMMC_INST (IMMC_INST_SETEQ | IMMC_INST_SETNEQ | IMMC_INST_SETLT | IMMC_INST_SETGT | IMMC_INST_SETLEQ | IMMC_INST_SETGEQ)
      (Some d) (Some f) (Some g) => with_size (common f g) (sourcesb f g) && registerb d && with_size (operand_size d) (fun _ => true) && dec (oreg_eq (operand_reg d) (operand_reg f))
  | IMMC_INST ((IMMC_INST_SAL | IMMC_INST_SAR) as t) (Some d) (Some f) (Some g) =>
      with_size (common f g) (fun s => sourcesb f g s && destinationb d s) && (match t with IMMC_INST_SAR => negb (operand_unsigned f) | _ => true end) && used_upb c after
  | IMMC_INST IMMC_INST_LOAD (Some d) (Some f) None =>
      registerb d && with_size (operand_size d) (fun z =>
        match f with
        | IMMC_OPERAND_PTR _ | IMMC_OPERAND_MEM _ | IMMC_OPERAND_LABEL _ => true
        | _ => register_or_literalb f && with_size (operand_size f) (fun _ => true) && widens_operandb f z && loadableb f z
        end)
  | IMMC_INST IMMC_INST_ADDR (Some d) (Some f) None => registerb d && dec (osize_eq (operand_size d) (Some S8))
  | IMMC_INST IMMC_INST_STORE (Some _) (Some f) None => register_or_literalb f && with_size (operand_size f) (fun z => encodableb z f)
  | IMMC_INST IMMC_INST_LDARG (Some (IMMC_OPERAND_MEM _)) (Some (IMMC_OPERAND_ARG _ r)) None => negb (dec (oreg_eq (argument_reg (reg_id r)) None))
  | IMMC_INST IMMC_INST_STRET None (Some f) None => register_or_literalb f && with_size (operand_size f) (fun z => loadableb f z)
  | _ => false
  end.
Fixpoint fits_all (n : nat) (l l' : list immc) : bool :=
  match n, l, l' with
  | O, _, _ => true
  | S n, c :: r, c' :: r' => fitsb r r' c c' && fits_all n r r'
  | _, _, _ => false
  end.
Fixpoint returns_jump (stop : name) (l : list immc) : bool :=
  match l with
  | [] => true
  | c :: r =>
      (negb (returns_value c) || match r with IMMC_INST IMMC_INST_JMP (Some (IMMC_OPERAND_LABEL m)) None None :: _ => name_eqb m stop | _ => false end)
      && returns_jump stop r
  end.
Fixpoint span_arguments (l : list immc) : list immc * list immc :=
  match l with
  | c :: r => if loads_argument c then let (a, b) := span_arguments r in (c :: a, b) else ([], l)
  | [] => ([], [])
  end.
Definition leafb (fn fn' : list immc) : bool :=
  match fn with
  | IMMC_LABEL IMMC_LABEL_FUNCTION _ n :: IMMC_INST IMMC_INST_ENTER None size None :: r =>
      match rev r with
      | IMMC_INST IMMC_INST_LEAVE None size' None :: IMMC_LABEL IMMC_LABEL_NORMAL _ stop :: m =>
          let (params, body) := span_arguments (rev m) in
          dec (ope_eq size size') && forallb (fun c => negb (loads_argument c)) body && returns_jump stop body
          && forallb (fun c => match goes_to c with Some t => negb (name_eqb t n) | None => true end) body
          && forallb (fun c => match writes c with Some w => 0 <=? w | None => true end) body
          && fits_all (length (params ++ body)) (skipn 2 fn) (skipn 2 fn')
      | _ => false
      end
  | _ => false
  end.
Definition leaf_functionb (C code : list immc) (nm : name) : bool :=
  match label_at nm C with
  | Some p =>
      match skipn p C with
      | (IMMC_LABEL IMMC_LABEL_FUNCTION _ _ as c) :: r => let fn := c :: fst (span_external r) in leafb fn (firstn (length fn) (skipn p code))
      | _ => false
      end
  | None => false
  end.
