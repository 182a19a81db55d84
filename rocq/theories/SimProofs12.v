(** Proofs for C48: functions with calls, from C to machine code *)
From Coq Require Import Lia ZifyBool.
From Verif Require Import Base SrtModel ResolverModel ElabProofs TypeSpec ScopeSpec ImmcModel ImmcgenModel LabelSpec LabelProofs3 RegallocModel FrontModel NameProofs X64Model X64genModel X64Decode OpSpec CSem CProgram ImmcSem GenSpec ExprProofs ExprProofs2 StmtProofs StmtProofs2 StmtProofs3 FunProofs ProgSpec ProgProofs ProgProofs2 RegSpec RegProofs2 OrderProofs OrderSpec CallSpec MarkSpec SimSpec SimCallSpec SimProofs7 SimProofs11 SourceProofs X64Isa.
Local Open Scope Z_scope.

Theorem compiled_calls a s C n code lives X u nm : resolve a = Ok s -> plain_names s -> immcgen s = Ok C -> regular_program s = true -> pointers_last s = true -> few_arguments s ->
  allocate_regs n C = Ok (code, lives) -> x64gen code lives = Ok X -> translation_unit s = Ok u -> modest_function C code nm ->
  exists F size saved body w, x64_function X F /\ function_code F size saved body /\ hd_error F = Some (X64_LABEL X64_LABEL_FUNCTION w nm)
  /\ (forall f, In (nm, f) (u_functions u) -> (length saved <= 1)%nat -> forall cl K width P k args W value W' m, (forall n a, p_label P n = Some a -> 0 <= a < 2 ^ 64) -> (forall i, p_string P i = p_label P (create_sliteral_label i)) ->
     calls_do cl K width (rget (regs m) RSP - frame_depth size saved) (regions (w_mem W)) (regions (mem m)) -> results_fit C (p_label P) width -> argument_room (w_mem W) (mem m) (rget (regs m) RSP - frame_depth size saved) ->
     function_does cl P k f args W value W' -> entered (w_mem W) args (p_frame P) size saved m ->
     exists p m', steps_with K (p_label P) F (0%nat, m) (p, m') /\ returning (p_label P) F p m' /\ returns_with (w_mem W) (w_mem W') value size saved m m').
Proof.
  intros Hr Pn Hi R Pl Fa Al Xg Hu (A & fn & B & v & EC & IF & Hd & Lf). destruct (calls_run _ _ _ _ _ _ _ _ _ _ Hr Pn Hi Pl Fa Al Xg EC IF Lf) as (F & size & saved & body & XF & FC & (v1 & w & nm1 & Hd1 & HF) & Run).
  rewrite Hd in Hd1. injection Hd1 as <- <-. exists F, size, saved, body, w. split; [exact XF |]. split; [exact FC |]. split; [exact HF |].
  intros f If Few cl K width P k args W value W' m PL PS Do Fit Room (Sc2 & Sc3 & W1 & fl & F1 & Bp & E & Ef) En.
  destruct (program_pieces _ _ _ _ Hr Hi Hu R) as (ps & Cp & Gd & Fn & St). destruct (program_labels _ _ _ Hr Pn Hi) as [NL _].
  destruct (find_piece u ps Fn nm f If) as (cs & I). destruct (piece_at C ps Cp _ I) as (i & At). cbn [code_of] in At. apply (proj1 (Forall_forall _ _) Gd) in I. cbn [good] in I. destruct (fun_shape _ _ _ I) as (nb & tl & Ecs & _ & _).
  assert (La : label_at nm C = Some i) by (rewrite Ecs in At; exact (ExprProofs.label_here C NL _ _ _ _ _ At)).
  assert (i = length A) as ->.
  { destruct fn as [| c fn]; [discriminate Hd |]. injection Hd as ->. assert (X1 : nth_error C (length A) = Some (IMMC_LABEL IMMC_LABEL_FUNCTION v nm)) by (rewrite EC, nth_error_app2, Nat.sub_diag by lia; reflexivity).
    rewrite (label_is C NL _ _ _ _ X1) in La. now injection La as ->. }
  destruct I as (fuel & x & y & z & t & bx & by_ & st & st' & Sc0 & Hg & Bt & G & Ib & Rf). destruct f as [prm fb Sc1]. cbn [f_params f_body f_scopes] in *.
  assert (Ri : items_regular Sc3 fb = true).
  { unfold regular_function in Rf. rewrite F1 in Rf. cbn [bind f_params f_body] in Rf. change (parameters prm Sc2) with (param_scopes prm Sc2) in Rf. rewrite (bind_params_scopes _ _ _ _ _ _ _ Bp) in Rf. exact Rf. }
  destruct Bt as [Be (sc & Bs & _) Bl _]. assert (Ef' : fl = Normal \/ exists v, fl = Return v) by (destruct Ef as [-> | [-> _]]; eauto). assert (Vf : value_of fl = value) by (destruct Ef as [-> | [-> ->]]; reflexivity).
  destruct (function_ok cl P args C NL (conj PL PS) _ _ _ _ _ _ _ _ _ _ _ _ _ _ _ _ _ W W1 k fl W' (length A) (mkist (fun _ => None) [] None W) Hg Be ltac:(rewrite Bs; reflexivity) Bl G F1 Bp Ri E Ef' At eq_refl eq_refl) as (q' & Ends & Wq & Rq).
  destruct (Run Few cl K width (p_label P) (p_frame P) args (mkist (fun _ => None) [] None W) q' m Do Fit Room En eq_refl eq_refl Ends) as (p & m' & R1 & R2 & R3). rewrite Wq, Rq, Vf in R3. eauto.
Qed.
Theorem source_calls src s C n code lives X u nm : front src = Ok s -> immcgen s = Ok C -> regular_program s = true -> pointers_last s = true -> few_arguments s ->
  allocate_regs n C = Ok (code, lives) -> x64gen code lives = Ok X -> translation_unit s = Ok u -> modest_function C code nm ->
  exists F size saved body w, x64_function X F /\ function_code F size saved body /\ hd_error F = Some (X64_LABEL X64_LABEL_FUNCTION w nm)
  /\ (forall f, In (nm, f) (u_functions u) -> (length saved <= 1)%nat -> forall cl K width P k args W value W' m, (forall n a, p_label P n = Some a -> 0 <= a < 2 ^ 64) -> (forall i, p_string P i = p_label P (create_sliteral_label i)) ->
     calls_do cl K width (rget (regs m) RSP - frame_depth size saved) (regions (w_mem W)) (regions (mem m)) -> results_fit C (p_label P) width -> argument_room (w_mem W) (mem m) (rget (regs m) RSP - frame_depth size saved) ->
     function_does cl P k f args W value W' -> entered (w_mem W) args (p_frame P) size saved m ->
     exists p m', steps_with K (p_label P) F (0%nat, m) (p, m') /\ returning (p_label P) F p m' /\ returns_with (w_mem W) (w_mem W') value size saved m m').
Proof. intros H. destruct (front_inv _ _ H) as (a & Hr & Pn). now apply (compiled_calls a). Qed.
