(** Reading back instructions, data, labels and whole files. *)
From Coq Require Import Lia.
From Verif Require Import Base LiteralModel LexSpec LexProofs2 LexProofs4 X64Model X64Decode AsmSpec AsmProofs.
From Verif Require Import X64Isa.
Open Scope Z_scope.

(** ** Mnemonics *)
Definition mnemonic_of (t : xinst) (src dst : option xope) : option mnemonic :=
  let sized mk := match mnemonic_size src dst with Some s => Some (mk s) | None => None end in
  let ext mk :=
    match src, dst with
    | Some a, Some b =>
        match size_of (xope_suffix a), size_of (xope_suffix b) with
        | Some S1, Some S2 => Some (mk S1 S2) | Some S1, Some S4 => Some (mk S1 S4) | Some S1, Some S8 => Some (mk S1 S8)
        | Some S2, Some S4 => Some (mk S2 S4) | Some S2, Some S8 => Some (mk S2 S8)
        | _, _ => None
        end
    | _, _ => None
    end in
  match t with
  | X64_INST_MOVX => sized MMov
  | X64_INST_MOVSXX => ext MMovsx
  | X64_INST_MOVZXX => ext MMovzx
  | X64_INST_MOVABSX => match mnemonic_size src dst with Some S8 => Some MMovabs | _ => None end
  | X64_INST_LEAX => sized MLea
  | X64_INST_CXTX =>
      match src, dst with
      | Some a, Some b => match xope_suffix a, xope_suffix b with X64_SUFFIX_LONG, X64_SUFFIX_QUAD => Some MCltq | _, _ => None end
      | _, _ => None
      end
  | X64_INST_CXTD => match one_suffix src dst with X64_SUFFIX_WORD => Some (MCxtd S2) | X64_SUFFIX_LONG => Some (MCxtd S4) | _ => None end
  | X64_INST_CQTO => Some (MCxtd S8)
  | X64_INST_PUSHX => match mnemonic_size src dst with Some S8 => Some MPush | _ => None end
  | X64_INST_POPX => match mnemonic_size src dst with Some S8 => Some MPop | _ => None end
  | X64_INST_ADDX => sized (MAlu X64Isa.Add) | X64_INST_SUBX => sized (MAlu X64Isa.Sub) | X64_INST_IMULX => sized (MAlu X64Isa.Imul)
  | X64_INST_ANDX => sized (MAlu X64Isa.And) | X64_INST_ORX => sized (MAlu X64Isa.Or) | X64_INST_XORX => sized (MAlu X64Isa.Xor)
  | X64_INST_CMPX => sized (MAlu X64Isa.Cmp)
  | X64_INST_SALX => sized (MShift Sal) | X64_INST_SARX => sized (MShift Sar)
  | X64_INST_NEGX => sized (MUn Neg) | X64_INST_NOTX => sized (MUn Not)
  | X64_INST_DIVX => sized MDiv | X64_INST_IDIVX => sized MIdiv
  | X64_INST_JMP => Some MJmp | X64_INST_CALL => Some MCall | X64_INST_RET => Some MRet
  | X64_INST_SETE | X64_INST_SETNE | X64_INST_SETA | X64_INST_SETAE | X64_INST_SETB | X64_INST_SETBE
  | X64_INST_SETG | X64_INST_SETGE | X64_INST_SETL | X64_INST_SETLE =>
      match condition t with Some c => Some (MSet c) | None => None end
  | _ => match condition t with Some c => Some (MJcc c) | None => None end
  end.
(** the characters of mnemonics *)
Definition mchar (c : Z) : bool := lower c.
Lemma mnemonic_read t src dst m c : mnemonic_of t src dst = Some m -> x64instcode_tostring t src dst = Ok c ->
  LexSpec.assoc mnemonics c = Some m /\ forallb mchar c = true /\ c <> [].
Proof.
  intros M H.
  assert (K : forall x, Ok x = Ok c -> LexSpec.assoc mnemonics x = Some m /\ forallb mchar x = true /\ x <> [] ->
              LexSpec.assoc mnemonics c = Some m /\ forallb mchar c = true /\ c <> []) by (intros x [= <-]; auto).
  destruct t; cbn [x64instcode_tostring] in H;
    try (refine (K _ H _); clear H K; injection M as <-; repeat split; vm_compute; congruence);
    unfold mnemonic_of, mnemonic_size in M;
    try (refine (K _ H _); clear H K; destruct (one_suffix src dst); try discriminate; injection M as <-;
         repeat split; vm_compute; congruence);
    destruct src as [a |]; try discriminate; destruct dst as [b |]; try discriminate; cbn [deref bind] in H;
    refine (K _ H _); clear H K; destruct (xope_suffix a); try discriminate; destruct (xope_suffix b); try discriminate;
    injection M as <-; repeat split; vm_compute; congruence.
Qed.

(** ** Operand lists *)
Definition shown_ops (src dst : option xope) : list xope :=
  (match shown src with Some o => [o] | None => [] end) ++ (match shown dst with Some o => [o] | None => [] end).
Definition readable_opt (o : option xope) : Prop := match o with Some o => readable o | None => True end.

Local Opaque imm_fits imm64_fits lit_value reg_of.
Lemma decode_assemble t src dst i : decode t src dst = Some i ->
  exists m ops, mnemonic_of t src dst = Some m /\ all_some (List.map meaning_op (shown_ops src dst)) = Some ops /\ assemble m ops = Some i.
Proof.
  intros H.
  destruct t; destruct src as [[]|]; try discriminate H; destruct dst as [[]|]; try discriminate H;
    repeat match goal with s : xsuffix |- _ => destruct s; try discriminate H end;
    cbn in H;
    repeat match goal with H : context [if ?b then _ else _] |- _ => destruct b eqn:?; try discriminate H end;
    try discriminate H; injection H as <-; (eexists _, _; split; [reflexivity |]; split; [reflexivity |]);
    cbn; repeat match goal with E : _ = true |- _ => rewrite E end; reflexivity.
Qed.
Local Transparent imm_fits imm64_fits lit_value reg_of.

(** ** Lines *)
Lemma opchar_blank s : forallb opchar s = true -> skip_blank s = s.
Proof.
  intros H. destruct s as [|c s]; [reflexivity |]. cbn [forallb] in H. apply andb_prop in H as (H & _).
  cbn [skip_blank]. destruct c as [|p|p]; try reflexivity. do 6 (destruct p as [p|p|]; try reflexivity). discriminate H.
Qed.
Lemma read_operands_one a o : forallb opchar a = true -> read_operand a = Some o -> read_operands a = Some [o].
Proof.
  intros A R. unfold read_operands. rewrite split_on_none by (apply opchar_not_in; [exact A | reflexivity]).
  cbn [List.map all_some]. rewrite opchar_blank by assumption. now rewrite R.
Qed.
Lemma read_operands_two a b o p : forallb opchar a = true -> forallb opchar b = true -> read_operand a = Some o -> read_operand b = Some p ->
  read_operands (a ++ bytes ", " ++ b) = Some [o; p].
Proof.
  intros A B R Q. unfold read_operands. change (a ++ bytes ", " ++ b) with (a ++ 44 :: 32 :: b).
  rewrite split_on_cons by (apply opchar_not_in; [exact A | reflexivity]).
  rewrite split_on_none by (intros [K | K]; [discriminate | revert K; apply opchar_not_in; [exact B | reflexivity]]).
  cbn [List.map all_some skip_blank]. rewrite !opchar_blank by assumption. now rewrite R, Q.
Qed.
Lemma mchar_not_in c s : forallb mchar s = true -> mchar c = false -> ~ In c s.
Proof. intros H N I. rewrite forallb_forall in H. rewrite (H _ I) in N. discriminate. Qed.
Lemma mchar_head c s (H : mchar c = true) : c <> 9 /\ c <> 46 /\ name_eqb (c :: s) (bytes ".text") = false /\ name_eqb (c :: s) (bytes ".data") = false.
Proof.
  assert (C : c <> 9 /\ c <> 46) by (unfold mchar, lower in H; lia). destruct C as (C & D). split; [exact C | split; [exact D |]].
  change (bytes ".text") with (46 :: bytes "text"). change (bytes ".data") with (46 :: bytes "data").
  cbn [name_eqb]. replace (c =? 46) with false by lia. auto.
Qed.
Lemma read_line_bare m i : m <> [] -> forallb mchar m = true -> read_instruction [m] = Some i -> read_line (9 :: m) = Some (LInsn i).
Proof.
  intros N M R. unfold read_line. rewrite split_on_none by (apply mchar_not_in; [exact M | reflexivity]).
  destruct m as [|c m]; [contradiction |]. pose proof M as M'. cbn [forallb] in M'. apply andb_prop in M' as (C & _).
  destruct (mchar_head c m C) as (_ & _ & -> & ->).
  rewrite split_on_none by (apply mchar_not_in; [exact M | reflexivity]). now rewrite R.
Qed.
Lemma match_46 {T} c (a b : T) : c <> 46 -> match c with 46 => a | _ => b end = b.
Proof. intros H. destruct c as [|p|p]; try reflexivity. do 6 (destruct p as [p|p|]; try reflexivity). now contradiction H. Qed.
Lemma read_line_ops m ops i : m <> [] -> forallb mchar m = true -> ~ In 9 ops ->
  read_instruction [m; ops] = Some i -> read_line (9 :: m ++ 9 :: ops) = Some (LInsn i).
Proof.
  intros N M O R. unfold read_line. rewrite split_on_cons by (apply mchar_not_in; [exact M | reflexivity]).
  rewrite split_on_none by assumption.
  destruct m as [|c m]; [contradiction |]. cbn [forallb] in M. apply andb_prop in M as (C & _).
  destruct (mchar_head c m C) as (_ & D & _). cbn [app]. rewrite match_46 by assumption. now rewrite R.
Qed.
Lemma opt_shown (o : option xope) : readable_opt o -> forall a, shown o = Some a -> readable a /\ shown (Some a) = Some a.
Proof. intros R a E. destruct o as [[]|]; cbn in E; try discriminate; injection E as <-; (split; [exact R | reflexivity]). Qed.

Lemma inst_line t src dst i txt : decode t src dst = Some i -> readable_opt src -> readable_opt dst ->
  x64inst_tostring t src dst = Ok txt ->
  exists l, txt = l ++ [10] /\ ~ In 10 l /\ l <> [] /\ read_line l = Some (LInsn i).
Proof.
  intros D Rs Rd H. destruct (decode_assemble _ _ _ _ D) as (m & ops & M & O & A). unfold x64inst_tostring in H.
  destruct (x64instcode_tostring t src dst) as [c | | | |] eqn:C; try discriminate H. cbn [bind] in H.
  destruct (mnemonic_read _ _ _ _ _ M C) as (Lm & Cm & Nm).
  pose proof (mchar_not_in 10 c Cm eq_refl) as N10. pose proof (mchar_not_in 9 c Cm eq_refl) as N9.
  pose proof (opt_shown _ Rs) as Ss. pose proof (opt_shown _ Rd) as Sd. unfold shown_ops in O.
  destruct (shown src) as [a |]; destruct (shown dst) as [b |]; cbn [app List.map all_some] in O.
  - destruct (Ss a eq_refl) as (Ra & Sa). destruct (Sd b eq_refl) as (Rb & Sb).
    destruct (x64ope_tostring a) as [ta | | | |] eqn:Ta; try discriminate H. cbn [bind] in H.
    destruct (x64ope_tostring b) as [tb | | | |] eqn:Tb; try discriminate H. cbn [bind] in H.
    apply in_buffer_ok in H as ->. destruct (read_ope a ta Ra Ta Sa) as (Qa & Ca & _). destruct (read_ope b tb Rb Tb Sb) as (Qb & Cb & _).
    destruct (meaning_op a) as [oa |]; [| discriminate O]. destruct (meaning_op b) as [ob |]; [| discriminate O]. injection O as <-.
    exists (9 :: c ++ 9 :: ta ++ bytes ", " ++ tb). split; [cbn [bytes app]; change (bytes "	") with [9]; cbn [app]; now rewrite <- ?app_assoc; cbn [app]; rewrite <- ?app_assoc |].
    assert (NO : forall x, opchar x = false -> x <> 44 -> x <> 32 -> ~ In x (ta ++ bytes ", " ++ tb)).
    { intros x X1 X2 X3 K. apply in_app_or in K as [K | K]; [revert K; now apply opchar_not_in |].
      apply in_app_or in K as [[K | [K | []]] | K]; try (cbn in K; congruence). revert K; now apply opchar_not_in. }
    split; [| split; [discriminate |]].
    + intros [K | K]; [discriminate |]. apply in_app_or in K as [K | [K | K]]; [contradiction | discriminate |]. revert K. apply NO; (reflexivity || discriminate).
    + apply read_line_ops; try assumption; [apply NO; (reflexivity || discriminate) |].
      unfold read_instruction. rewrite Lm. now rewrite (read_operands_two ta tb oa ob).
  - destruct (Ss a eq_refl) as (Ra & Sa).
    destruct (x64ope_tostring a) as [ta | | | |] eqn:Ta; try discriminate H. cbn [bind] in H.
    apply in_buffer_ok in H as ->. destruct (read_ope a ta Ra Ta Sa) as (Qa & Ca & _).
    destruct (meaning_op a) as [oa |]; [| discriminate O]. injection O as <-.
    exists (9 :: c ++ 9 :: ta). split; [change (bytes "	") with [9]; cbn [app]; now rewrite <- app_assoc |].
    split; [| split; [discriminate |]].
    + intros [K | K]; [discriminate |]. apply in_app_or in K as [K | [K | K]]; [contradiction | discriminate |]. revert K. now apply opchar_not_in.
    + apply read_line_ops; try assumption; [now apply opchar_not_in |].
      unfold read_instruction. rewrite Lm. now rewrite (read_operands_one ta oa).
  - destruct (Sd b eq_refl) as (Rb & Sb).
    destruct (x64ope_tostring b) as [tb | | | |] eqn:Tb; try discriminate H. cbn [bind] in H.
    apply in_buffer_ok in H as ->. destruct (read_ope b tb Rb Tb Sb) as (Qb & Cb & _).
    destruct (meaning_op b) as [ob |]; [| discriminate O]. injection O as <-.
    exists (9 :: c ++ 9 :: tb). split; [change (bytes "	") with [9]; cbn [app]; now rewrite <- app_assoc |].
    split; [| split; [discriminate |]].
    + intros [K | K]; [discriminate |]. apply in_app_or in K as [K | [K | K]]; [contradiction | discriminate |]. revert K. now apply opchar_not_in.
    + apply read_line_ops; try assumption; [now apply opchar_not_in |].
      unfold read_instruction. rewrite Lm. now rewrite (read_operands_one tb ob).
  - cbn [bind] in H. apply in_buffer_ok in H as ->. injection O as <-.
    exists (9 :: c). split; [reflexivity |]. split; [intros [K | K]; [discriminate | contradiction] |]. split; [discriminate |].
    apply read_line_bare; try assumption. unfold read_instruction. now rewrite Lm.
Qed.

(** ** Data *)
Lemma le_bytes_mod n : forall v, List.map (fun c => c mod 256) (le_bytes n v) = le_bytes n v.
Proof.
  induction n as [|n IH]; intros v; [reflexivity |]. cbn [le_bytes List.map]. rewrite IH, Z.mod_mod by lia. reflexivity.
Qed.
Lemma int_data_mod n v b : int_data n v = Some b -> List.map (fun c => c mod 256) b = b.
Proof. unfold int_data. destruct (_ && _); [intros [= <-]; apply le_bytes_mod | discriminate]. Qed.
Lemma repeat_mod n : List.map (fun c => c mod 256) (repeat 0 n) = repeat 0 n.
Proof. induction n as [|n IH]; [reflexivity |]. cbn [repeat List.map]. now rewrite IH. Qed.

(** strings the assembler reads back (C09) *)
Definition plain_string (s : sliteral) : Prop := Forall (fun c => 0 <= c <= 127 /\ c <> 7 /\ c <> 11) s.
Lemma celem_printable c : 0 <= c <= 127 -> forallb (fun x => 32 <=? x) (elem_text (celem c)) = true.
Proof. intros H. apply (check_seven (fun c => forallb (fun x => 32 <=? x) (elem_text (celem c)))); [vm_compute; reflexivity | exact H]. Qed.
Lemma display_printable s txt : Forall (fun c => 0 <= c <= 127) s -> sliteral_display s = Ok txt -> forallb (fun x => 32 <=? x) txt = true.
Proof.
  intros H D. rewrite display_spec in D by exact H. injection D as <-. cbn [spell forallb]. rewrite forallb_app. cbn [forallb].
  rewrite andb_true_r. cbn. induction H as [|c s Hc _ IH]; [reflexivity |]. cbn [List.map]. unfold elems_text. cbn [flat_map].
  rewrite forallb_app, celem_printable by assumption. exact IH.
Qed.
Lemma printable_not_in c s : forallb (fun x => 32 <=? x) s = true -> c < 32 -> ~ In c s.
Proof. intros H N I. rewrite forallb_forall in H. specialize (H _ I). cbv beta in H. lia. Qed.

Lemma data_line_read (d : list Z) arg b : ~ In 9 arg -> In d [bytes ".byte"; bytes ".word"; bytes ".long"; bytes ".quad"; bytes ".zero"; bytes ".ascii"] ->
  data_line d arg = Some b -> read_line (9 :: d ++ 9 :: arg) = Some (LBytes b).
Proof.
  intros N D R. unfold read_line.
  assert (K : ~ In 9 d) by (cbn in D; intuition (subst d; vm_compute in H; intuition discriminate)).
  rewrite split_on_cons, split_on_none by assumption.
  assert (T : exists r, d = 46 :: r) by (cbn in D; intuition (subst d; eexists; reflexivity)).
  destruct T as (r & ->). cbn [app]. now rewrite R.
Qed.
