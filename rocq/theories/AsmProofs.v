(** The assembler reads what the compiler prints: lemmas for C46. *)
From Coq Require Import Lia.
From Verif Require Import Base LiteralModel LexSpec LexProofs2 X64Model X64Decode AsmSpec.
From Verif Require Import X64Isa.
Open Scope Z_scope.

(** ** Splitting *)
Lemma split_on_ne c s : split_on c s <> [].
Proof. induction s as [|x s IH]; cbn; [discriminate |]. destruct (split_on c s); [contradiction |]. now destruct (x =? c). Qed.
Lemma split_on_cons c a s : ~ In c a -> split_on c (a ++ c :: s) = a :: split_on c s.
Proof.
  induction a as [|x a IH]; intros H; cbn [app split_on].
  - pose proof (split_on_ne c s). destruct (split_on c s); [contradiction |]. now rewrite Z.eqb_refl.
  - rewrite IH by (intros K; apply H; now right). replace (x =? c) with false; [reflexivity |].
    symmetry. apply Z.eqb_neq. intros ->. apply H. now left.
Qed.
Lemma split_on_none c a : ~ In c a -> split_on c a = [a].
Proof.
  induction a as [|x a IH]; intros H; cbn [split_on]; [reflexivity |].
  rewrite IH by (intros K; apply H; now right). replace (x =? c) with false; [reflexivity |].
  symmetry. apply Z.eqb_neq. intros ->. apply H. now left.
Qed.

(** ** Numbers *)
Lemma dec_digits_spec f : forall n, 0 <= n < 10 ^ Z.of_nat f -> forallb digit (dec_digits f n) = true /\ number 10 (dec_digits f n) = n
  /\ (f <> O -> dec_digits f n <> []).
Proof.
  induction f as [|f IH]; intros n H.
  - change (10 ^ Z.of_nat 0) with 1 in H. split; [reflexivity |]. split; [cbn [dec_digits number]; lia | congruence].
  - cbn [dec_digits]. destruct (n <? 10) eqn:E.
    + repeat split; [| | discriminate].
      * cbn [forallb]. unfold digit. lia.
      * cbn [number length]. unfold dval, digit. replace ((48 <=? 48 + n) && (48 + n <=? 57)) with true by lia. change (10 ^ Z.of_nat 0) with 1. lia.
    + assert (H2 : 0 <= n / 10 < 10 ^ Z.of_nat f).
      { split; [apply Z.div_pos; lia |]. apply Z.div_lt_upper_bound; [lia |].
        replace (10 * 10 ^ Z.of_nat f) with (10 ^ Z.of_nat (S f)); [lia |].
        rewrite Nat2Z.inj_succ, Z.pow_succ_r by lia. reflexivity. }
      destruct (IH _ H2) as (D & N & _). pose proof (Z.mod_pos_bound n 10 ltac:(lia)) as Hm.
      repeat split.
      * rewrite forallb_app, D. cbn [forallb andb]. unfold digit. lia.
      * rewrite number_app, N. cbn [number length]. change (10 ^ Z.of_nat 1) with 10. change (10 ^ Z.of_nat 0) with 1. unfold dval, digit.
        replace ((48 <=? 48 + n mod 10) && (48 + n mod 10 <=? 57)) with true by lia.
        pose proof (Z.div_mod n 10 ltac:(lia)). lia.
      * intros _. destruct (dec_digits f (n / 10)); discriminate.
Qed.
Lemma print_unsigned_spec n : 0 <= n -> forallb digit (print_unsigned n) = true /\ number 10 (print_unsigned n) = n /\ print_unsigned n <> [].
Proof.
  intros H. unfold print_unsigned. set (f := S (Z.to_nat (Z.log2 n))).
  destruct (dec_digits_spec f n) as (D & N & E).
  - split; [assumption |]. apply Z.lt_le_trans with (2 ^ Z.of_nat f).
    + subst f. rewrite Nat2Z.inj_succ, Z2Nat.id by apply Z.log2_nonneg.
      destruct (Z.eq_dec n 0) as [-> | N]; [reflexivity |]. apply Z.log2_spec. lia.
    + apply Z.pow_le_mono_l. lia.
  - repeat split; try assumption. apply E. discriminate.
Qed.
Lemma read_digits_print n : 0 <= n -> read_digits (print_unsigned n) = Some n.
Proof.
  intros H. destruct (print_unsigned_spec n H) as (D & N & E). unfold read_digits.
  destruct (print_unsigned n) eqn:P; [contradiction |]. rewrite <- P in *. now rewrite D, N.
Qed.
Lemma read_number_digits s : forallb digit s = true -> read_number s = read_digits s.
Proof.
  intros H. destruct s as [|c s]; [reflexivity |]. cbn [forallb] in H. apply andb_prop in H as (H & _).
  unfold read_number. destruct c as [|p|p]; try reflexivity. unfold digit in H.
  do 6 (destruct p as [p|p|]; try reflexivity; try (cbn in H; lia)).
Qed.
Lemma read_number_unsigned n : 0 <= n -> read_number (print_unsigned n) = Some n.
Proof. intros H. rewrite read_number_digits by now apply print_unsigned_spec. now apply read_digits_print. Qed.
Lemma read_number_signed n : read_number (print_signed n) = Some n.
Proof.
  unfold print_signed. destruct (n <? 0) eqn:E.
  - cbn [read_number]. rewrite read_digits_print by lia. f_equal. lia.
  - apply read_number_unsigned. lia.
Qed.
Definition lit_ok (i : iliteral) : Prop := iliteral_isunsigned i = true -> 0 <= uval i.
Lemma read_number_display i : lit_ok i -> read_number (iliteral_display i) = Some (lit_value i).
Proof.
  intros H. unfold iliteral_display, lit_value. destruct (iliteral_isunsigned i) eqn:E.
  - apply read_number_unsigned. now apply H.
  - apply read_number_signed.
Qed.

(** characters of operands *)
Definition opchar (c : Z) : bool := symchar c || existsb (Z.eqb c) [36; 37; 40; 41; 42; 45].
Lemma digits_opchar s : forallb digit s = true -> forallb opchar s = true.
Proof.
  induction s as [|c s IH]; [reflexivity |]. cbn [forallb]. intros H. apply andb_prop in H as (H & K).
  rewrite IH by assumption. unfold opchar, symchar. rewrite H. now rewrite orb_true_r.
Qed.
Lemma print_unsigned_opchar n : 0 <= n -> forallb opchar (print_unsigned n) = true.
Proof. intros H. apply digits_opchar. now apply print_unsigned_spec. Qed.
Lemma print_signed_opchar n : forallb opchar (print_signed n) = true.
Proof.
  unfold print_signed. destruct (n <? 0) eqn:E.
  - cbn [forallb]. rewrite print_unsigned_opchar by lia. reflexivity.
  - apply print_unsigned_opchar. lia.
Qed.
Lemma opchar_not_in c s : forallb opchar s = true -> opchar c = false -> ~ In c s.
Proof. intros H N I. rewrite forallb_forall in H. rewrite (H _ I) in N. discriminate. Qed.
Lemma symchar_not_in c s : forallb symchar s = true -> symchar c = false -> ~ In c s.
Proof. intros H N I. rewrite forallb_forall in H. rewrite (H _ I) in N. discriminate. Qed.

(** ** Operands *)
Definition meaning_op (o : xope) : option aop :=
  match o with
  | X64_OPERAND_SUFFIX _ => None
  | X64_OPERAND_REG s r => match size_of s with Some z => Some (ARegister z (reg_of r)) | None => None end
  | X64_OPERAND_PTR r => Some (AMemory (Base_disp (reg_of r) 0))
  | X64_OPERAND_JPTR r => Some (AIndirect (reg_of r))
  | X64_OPERAND_MEM off => Some (AMemory (Base_disp RBP (- off)))
  | X64_OPERAND_LABEL n => Some (AMemory (Rip_label n))
  | X64_OPERAND_JLABEL n => Some (ASymbol n)
  | X64_OPERAND_INT _ i => Some (AImmediate (lit_value i))
  end.
(** the operands that can be read back: symbols that are symbols, and not the low word of R13 *)
Definition readable (o : xope) : Prop :=
  match o with
  | X64_OPERAND_REG X64_SUFFIX_WORD R13_REG_ID => False
  | X64_OPERAND_LABEL n | X64_OPERAND_JLABEL n => symbol n = true
  | X64_OPERAND_INT _ i => lit_ok i
  | _ => True
  end.
Lemma in_buffer_ok cap s t : in_buffer cap s = Ok t -> t = s.
Proof. unfold in_buffer. destruct (_ <=? _); [now intros [= ->] | discriminate]. Qed.

Lemma symbol_parts n : symbol n = true -> forallb symchar n = true /\ exists c r, n = c :: r /\ symchar c = true /\ digit c = false.
Proof.
  destruct n as [|c r]; [discriminate |]. unfold symbol. intros H. apply andb_prop in H as (H & K). split; [exact K |].
  exists c, r. apply negb_true_iff in H. cbn [forallb] in K. apply andb_prop in K as (K & _). auto.
Qed.
(** operands that do not start with $, % or * are read by their shape *)
Lemma read_operand_plain c r : c <> 36 -> c <> 37 -> c <> 42 ->
  read_operand (c :: r) =
  match split_on 40 (c :: r) with
  | [n] => if symbol n then Some (ASymbol n) else None
  | [disp; base] => match read_memory disp base with Some a => Some (AMemory a) | None => None end
  | _ => None
  end.
Proof.
  intros H1 H2 H3. unfold read_operand. destruct c as [|p|p]; try reflexivity.
  do 6 (destruct p as [p|p|]; try reflexivity; try lia).
Qed.
Lemma symchar_plain c : symchar c = true -> c <> 36 /\ c <> 37 /\ c <> 42 /\ c <> 40.
Proof. unfold symchar, nondigit, lower, upper, digit. lia. Qed.
Lemma read_operand_base (r : xreg) disp v : ~ In 40 disp ->
  (disp = [] /\ v = 0 \/ disp <> [] /\ (exists c t, disp = c :: t /\ c <> 36 /\ c <> 37 /\ c <> 42) /\ read_number disp = Some v) ->
  read_operand (disp ++ 40 :: QREG_NAME r ++ [41]) = Some (AMemory (Base_disp (reg_of r) v)).
Proof.
  intros N H.
  assert (P : read_operand (disp ++ 40 :: QREG_NAME r ++ [41]) =
    match split_on 40 (disp ++ 40 :: QREG_NAME r ++ [41]) with
    | [n] => if symbol n then Some (ASymbol n) else None
    | [disp; base] => match read_memory disp base with Some a => Some (AMemory a) | None => None end
    | _ => None
    end).
  { destruct H as [(-> & _) | (_ & (c & t & -> & ? & ? & ?) & _)]; cbn [app]; now apply read_operand_plain. }
  rewrite P, split_on_cons by assumption.
  replace (split_on 40 (QREG_NAME r ++ [41])) with [QREG_NAME r ++ [41]] by (destruct r; reflexivity).
  replace (read_memory disp (QREG_NAME r ++ [41])) with (Some (Base_disp (reg_of r) v)); [reflexivity |].
  unfold read_memory. replace (name_eqb (QREG_NAME r ++ [41]) (bytes "%rip)")) with false by (destruct r; reflexivity).
  replace (read_register (removelast (QREG_NAME r ++ [41]))) with (Some (S8, reg_of r)) by (destruct r; reflexivity).
  replace (last (QREG_NAME r ++ [41]) 0) with 41 by (destruct r; reflexivity).
  destruct H as [(-> & ->) | (H & _ & ->)]; [reflexivity |]. now destruct disp.
Qed.
Lemma print_signed_head n : exists c t, print_signed n = c :: t /\ (digit c = true \/ c = 45).
Proof.
  unfold print_signed. destruct (n <? 0) eqn:E.
  - exists 45, (print_unsigned (- n)). auto.
  - destruct (print_unsigned_spec n ltac:(lia)) as (D & _ & N). destruct (print_unsigned n) as [|c t]; [contradiction |].
    exists c, t. cbn [forallb] in D. apply andb_prop in D as (D & _). auto.
Qed.
Lemma read_ope o txt : readable o -> x64ope_tostring o = Ok txt -> shown (Some o) = Some o ->
  read_operand txt = meaning_op o /\ forallb opchar txt = true /\ txt <> [].
Proof.
  intros R H S. destruct o as [s | s r | r | r | off | n | n | s i]; cbn [x64ope_tostring] in H.
  - discriminate.
  - destruct s; cbn [reg_name] in H; try discriminate; injection H as <-.
    1, 3, 4: destruct r; repeat split; vm_compute; congruence.
    destruct r; try contradiction; repeat split; vm_compute; congruence.
  - cbn [reg_name bind] in H. apply in_buffer_ok in H as ->. split; [| split; [destruct r; reflexivity | discriminate]].
    apply (read_operand_base r [] 0); [tauto | now left].
  - cbn [reg_name bind] in H. apply in_buffer_ok in H as ->. destruct r; repeat split; vm_compute; congruence.
  - cbn [reg_name bind] in H. apply in_buffer_ok in H as ->.
    destruct (print_signed_head (- off)) as (c & t & P & C).
    assert (K : ~ In 40 (print_signed (- off))).
    { unfold print_signed. destruct (- off <? 0) eqn:E.
      - intros [K | K]; [discriminate |]. destruct (print_unsigned_spec (- - off) ltac:(lia)) as (D & _).
        rewrite forallb_forall in D. now specialize (D _ K).
      - intros K. destruct (print_unsigned_spec (- off) ltac:(lia)) as (D & _).
        rewrite forallb_forall in D. now specialize (D _ K). }
    split; [| split].
    + apply (read_operand_base BP_REG_ID); [exact K |]. right. rewrite P at 1. split; [discriminate |].
      split; [| apply read_number_signed]. exists c, t. split; [exact P |]. unfold digit in C. lia.
    + rewrite forallb_app, print_signed_opchar. reflexivity.
    + rewrite P. discriminate.
  - apply in_buffer_ok in H as ->. destruct (symbol_parts n R) as (A & c & t & E & C & _).
    split; [| split].
    + subst n. change (bytes "(" ++ PC_NAME ++ bytes ")") with (40 :: bytes "%rip)").
      destruct (symchar_plain _ C) as (? & ? & ? & ?). cbn [app]. rewrite read_operand_plain by assumption.
      change (c :: t ++ 40 :: bytes "%rip)") with ((c :: t) ++ 40 :: bytes "%rip)").
      rewrite split_on_cons by (apply symchar_not_in; [exact A | reflexivity]).
      change (split_on 40 (bytes "%rip)")) with [bytes "%rip)"]. unfold read_memory.
      change (name_eqb (bytes "%rip)") (bytes "%rip)")) with true. cbn [readable] in R. now rewrite R.
    + rewrite forallb_app. replace (forallb opchar n) with true; [reflexivity |]. symmetry.
      apply forallb_forall. intros x Hx. rewrite forallb_forall in A. unfold opchar. now rewrite (A x Hx).
    + subst n. discriminate.
  - apply in_buffer_ok in H as ->. destruct (symbol_parts n R) as (A & c & t & E & C & _).
    split; [| split].
    + subst n. destruct (symchar_plain _ C) as (? & ? & ? & ?). rewrite read_operand_plain by assumption.
      rewrite split_on_none by (apply symchar_not_in; [exact A | reflexivity]). cbn [readable] in R. now rewrite R.
    + apply forallb_forall. intros x Hx. rewrite forallb_forall in A. unfold opchar. now rewrite (A x Hx).
    + subst n. discriminate.
  - apply in_buffer_ok in H as ->. split; [| split; [| discriminate]].
    + cbn [bytes app read_operand]. change (bytes "$" ++ iliteral_display i) with (36 :: iliteral_display i). cbn [read_operand].
      now rewrite read_number_display.
    + change (bytes "$" ++ iliteral_display i) with (36 :: iliteral_display i). cbn [forallb]. unfold iliteral_display.
      destruct (iliteral_isunsigned i) eqn:U; [rewrite print_unsigned_opchar by now apply R | rewrite print_signed_opchar]; reflexivity.
Qed.
