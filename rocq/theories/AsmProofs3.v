(** Reading back whole files; the buffers. *)
From Coq Require Import Lia.
From Verif Require Import Base LiteralModel LexSpec LexProofs2 LexProofs4 MapProofs2 X64Model X64Decode AsmSpec AsmProofs AsmProofs2.
From Verif Require Import X64Isa.
Open Scope Z_scope.

Definition readable_code (c : x64) : Prop :=
  match c with
  | X64_INST _ s d => readable_opt s /\ readable_opt d
  | X64_INT_DATA _ i => lit_ok i
  | X64_STR_DATA t s => t = X64_DATA_STR /\ plain_string s
  | X64_LABEL _ _ n => symbol n = true
  end.
Lemma read_lines_cons l rest p : l <> [] -> ~ In 10 l ->
  read_lines (split_on 10 (l ++ 10 :: rest)) p =
  match read_line l with
  | Some (LSection x) => read_lines (split_on 10 rest) x
  | Some (LAttribute _) => read_lines (split_on 10 rest) p
  | Some (LLabel n) => match read_lines (split_on 10 rest) Same with Some t => Some (Label p n :: t) | None => None end
  | Some (LBytes b) =>
      match p, read_lines (split_on 10 rest) Same with Same, Some t => Some (Bytes (List.map (fun c => c mod 256) b) :: t) | _, _ => None end
  | Some (LInsn i) => match p, read_lines (split_on 10 rest) Same with Same, Some t => Some (Insn i :: t) | _, _ => None end
  | None => None
  end.
Proof. intros N K. rewrite split_on_cons by assumption. destruct l; [contradiction | reflexivity]. Qed.

Lemma read_label n : symbol n = true -> read_line (n ++ [58]) = Some (LLabel n).
Proof.
  intros S. destruct (symbol_parts n S) as (A & c & r & E & C & _).
  assert (P : read_line (n ++ [58]) = match split_on 58 (n ++ [58]) with [n; []] => if symbol n then Some (LLabel n) else None | _ => None end).
  { subst n. cbn [app]. unfold read_line. destruct c as [|p|p]; try reflexivity.
    do 5 (destruct p as [p|p|]; try reflexivity; try discriminate C). }
  rewrite P, split_on_cons by (apply symchar_not_in; [exact A | reflexivity]). cbn [split_on]. now rewrite S.
Qed.
Lemma read_attribute a n : In a [bytes ".globl"; bytes ".local"] -> symbol n = true -> read_line (9 :: a ++ 32 :: n) = Some (LAttribute n).
Proof.
  intros I S. destruct (symbol_parts n S) as (A & _). unfold read_line.
  assert (N9 : ~ In 9 (a ++ 32 :: n)).
  { intros K. apply in_app_or in K as [K | [K | K]]; [| discriminate |].
    - destruct I as [<- | [<- | []]]; vm_compute in K; intuition discriminate.
    - revert K. apply symchar_not_in; [exact A | reflexivity]. }
  rewrite split_on_none by assumption.
  replace (name_eqb (a ++ 32 :: n) (bytes ".text")) with false by (destruct I as [<- | [<- | []]]; reflexivity).
  replace (name_eqb (a ++ 32 :: n) (bytes ".data")) with false by (destruct I as [<- | [<- | []]]; reflexivity).
  rewrite split_on_cons by (destruct I as [<- | [<- | []]]; vm_compute; intuition discriminate).
  rewrite split_on_none by (apply symchar_not_in; [exact A | reflexivity]).
  rewrite S. destruct I as [<- | [<- | []]]; reflexivity.
Qed.
Lemma symbol_clean n : symbol n = true -> n <> [] /\ ~ In 10 n.
Proof.
  intros S. destruct (symbol_parts n S) as (A & c & r & -> & _). split; [discriminate |].
  apply symchar_not_in; [exact A | reflexivity].
Qed.

Lemma code_read c it txt rest : decode_item c = Some it -> readable_code c -> x64_tostring c = Ok txt ->
  read_lines (split_on 10 (txt ++ rest)) Same =
  match read_lines (split_on 10 rest) Same with Some t => Some (it :: t) | None => None end.
Proof.
  intros D R H. destruct c as [t src dst | t i | t s | t v n]; cbn [x64_tostring decode_item readable_code] in *.
  - destruct (decode t src dst) as [i |] eqn:E; [| discriminate]. injection D as <-. destruct R as (Rs & Rd).
    destruct (inst_line _ _ _ _ _ E Rs Rd H) as (l & -> & N & K & L). rewrite <- app_assoc. cbn [app].
    rewrite read_lines_cons by assumption. now rewrite L.
  - unfold x64data_tostring in H.
    assert (X : forall d n, t <> X64_DATA_STR -> data_directive t = 9 :: d ++ [9] ->
      In d [bytes ".byte"; bytes ".word"; bytes ".long"; bytes ".quad"; bytes ".zero"; bytes ".ascii"] ->
      data_line d (iliteral_display i) = Some n -> it = Bytes n -> List.map (fun c => c mod 256) n = n ->
      read_lines (split_on 10 (txt ++ rest)) Same =
      match read_lines (split_on 10 rest) Same with Some t => Some (it :: t) | None => None end).
    { intros d n T Dd Id Dl -> Mn.
      assert (H' : in_buffer 200 (data_directive t ++ iliteral_display i ++ [10]) = Ok txt) by (destruct t; try contradiction; exact H).
      apply in_buffer_ok in H' as ->. rewrite Dd.
      assert (Od : forallb opchar (iliteral_display i) = true).
      { unfold iliteral_display. destruct (iliteral_isunsigned i) eqn:U; [apply print_unsigned_opchar; now apply R | apply print_signed_opchar]. }
      replace (((9 :: d ++ [9]) ++ iliteral_display i ++ [10]) ++ rest) with ((9 :: d ++ 9 :: iliteral_display i) ++ 10 :: rest)
        by (cbn [app]; now rewrite <- !app_assoc; cbn [app]; rewrite <- ?app_assoc).
      rewrite read_lines_cons; [| discriminate |].
      - rewrite (data_line_read d (iliteral_display i) n); [now rewrite Mn | now apply opchar_not_in | assumption | assumption].
      - intros [K | K]; [discriminate |]. apply in_app_or in K as [K | [K | K]]; [| discriminate |].
        + cbn [In] in Id. intuition (subst d; vm_compute in K; intuition discriminate).
        + revert K. now apply opchar_not_in. }
    assert (RN : read_number (iliteral_display i) = Some (lit_value i)) by now apply read_number_display.
    destruct t; cbn beta iota in D.
    + destruct (int_data 1 (lit_value i)) as [b |] eqn:E; [| discriminate D]. injection D as <-.
      apply (X (bytes ".byte") b); [discriminate | reflexivity | cbn [In]; tauto | | reflexivity | eapply int_data_mod; exact E].
      unfold data_line. rewrite RN. exact E.
    + destruct (int_data 2 (lit_value i)) as [b |] eqn:E; [| discriminate D]. injection D as <-.
      apply (X (bytes ".word") b); [discriminate | reflexivity | cbn [In]; tauto | | reflexivity | eapply int_data_mod; exact E].
      unfold data_line. rewrite RN. exact E.
    + destruct (int_data 4 (lit_value i)) as [b |] eqn:E; [| discriminate D]. injection D as <-.
      apply (X (bytes ".long") b); [discriminate | reflexivity | cbn [In]; tauto | | reflexivity | eapply int_data_mod; exact E].
      unfold data_line. rewrite RN. exact E.
    + destruct (int_data 8 (lit_value i)) as [b |] eqn:E; [| discriminate D]. injection D as <-.
      apply (X (bytes ".quad") b); [discriminate | reflexivity | cbn [In]; tauto | | reflexivity | eapply int_data_mod; exact E].
      unfold data_line. rewrite RN. exact E.
    + destruct (0 <=? lit_value i) eqn:E; [| discriminate D]. injection D as <-.
      eapply (X (bytes ".zero")); [discriminate | reflexivity | cbn [In]; tauto | | reflexivity | apply repeat_mod].
      unfold data_line. rewrite RN, E. reflexivity.
    + discriminate D.
  - destruct R as (-> & R). injection D as <-. unfold x64data_tostring in H. cbn [deref bind] in H.
    destruct (display_gas s R) as (g & Dg & G). rewrite Dg in H. cbn [bind] in H. apply in_buffer_ok in H as ->.
    assert (P : forallb (fun x => 32 <=? x) (34 :: g) = true).
    { eapply display_printable; [| exact Dg]. eapply Forall_impl; [| exact R]. cbn. tauto. }
    change (data_directive X64_DATA_STR) with ((9 :: bytes ".ascii") ++ [9]).
    replace ((((9 :: bytes ".ascii") ++ [9]) ++ (34 :: g) ++ [10]) ++ rest) with ((9 :: bytes ".ascii" ++ 9 :: 34 :: g) ++ 10 :: rest)
      by (cbn [app]; now rewrite <- !app_assoc; cbn [app]; rewrite <- ?app_assoc).
    rewrite read_lines_cons; [| discriminate |].
    + rewrite (data_line_read (bytes ".ascii") (34 :: g) s); [reflexivity | apply printable_not_in; [exact P | lia] | cbn; tauto | exact G].
    + intros [K | K]; [discriminate |]. apply in_app_or in K as [K | [K | K]]; [vm_compute in K; intuition discriminate | discriminate |].
      revert K. apply printable_not_in; [exact P | lia].
  - injection D as <-. unfold x64label_tostring in H. apply in_buffer_ok in H as ->.
    destruct (symbol_clean n R) as (Nn & N10).
    assert (L : forall p, read_lines (split_on 10 ((n ++ bytes ":" ++ [10]) ++ rest)) p =
      match read_lines (split_on 10 rest) Same with Some t => Some (Label p n :: t) | None => None end).
    { intros p. replace ((n ++ bytes ":" ++ [10]) ++ rest) with ((n ++ [58]) ++ 10 :: rest) by now rewrite <- !app_assoc.
      rewrite read_lines_cons; [now rewrite read_label | destruct n; discriminate |].
      intros K. apply in_app_or in K as [K | [K | []]]; [contradiction | discriminate]. }
    assert (V : forall p, read_lines (split_on 10 ((match v with
        | X64_VIS_GLOBAL => bytes "	.globl " ++ n ++ [10] | X64_VIS_LOCAL => bytes "	.local " ++ n ++ [10] | X64_VIS_NONE => [] end
        ++ n ++ bytes ":" ++ [10]) ++ rest)) p =
      match read_lines (split_on 10 rest) Same with Some t => Some (Label p n :: t) | None => None end).
    { intros p. destruct v; [apply L | |].
      - replace (((bytes "	.globl " ++ n ++ [10]) ++ n ++ bytes ":" ++ [10]) ++ rest)
          with ((9 :: bytes ".globl" ++ 32 :: n) ++ 10 :: (n ++ bytes ":" ++ [10]) ++ rest)
          by (change (bytes "	.globl ") with ((9 :: bytes ".globl") ++ [32]); cbn [app]; rewrite <- ?app_assoc; cbn [app]; rewrite <- ?app_assoc; reflexivity).
        rewrite read_lines_cons; [rewrite read_attribute by (cbn; tauto); apply L | discriminate |].
        intros [K | K]; [discriminate |]. apply in_app_or in K as [K | [K | K]]; [vm_compute in K; intuition discriminate | discriminate | contradiction].
      - replace (((bytes "	.local " ++ n ++ [10]) ++ n ++ bytes ":" ++ [10]) ++ rest)
          with ((9 :: bytes ".local" ++ 32 :: n) ++ 10 :: (n ++ bytes ":" ++ [10]) ++ rest)
          by (change (bytes "	.local ") with ((9 :: bytes ".local") ++ [32]); cbn [app]; rewrite <- ?app_assoc; cbn [app]; rewrite <- ?app_assoc; reflexivity).
        rewrite read_lines_cons; [rewrite read_attribute by (cbn; tauto); apply L | discriminate |].
        intros [K | K]; [discriminate |]. apply in_app_or in K as [K | [K | K]]; [vm_compute in K; intuition discriminate | discriminate | contradiction]. }
    destruct t.
    + rewrite <- (V Text).
      match goal with |- read_lines (split_on 10 (((bytes "	.text" ++ [10]) ++ ?y) ++ rest)) Same = _ =>
        replace (((bytes "	.text" ++ [10]) ++ y) ++ rest) with (bytes "	.text" ++ 10 :: (y ++ rest)) by (rewrite <- !app_assoc; reflexivity) end.
      rewrite read_lines_cons; [reflexivity | discriminate | vm_compute; intuition discriminate].
    + rewrite <- (V Data).
      match goal with |- read_lines (split_on 10 (((bytes "	.data" ++ [10]) ++ ?y) ++ rest)) Same = _ =>
        replace (((bytes "	.data" ++ [10]) ++ y) ++ rest) with (bytes "	.data" ++ 10 :: (y ++ rest)) by (rewrite <- !app_assoc; reflexivity) end.
      rewrite read_lines_cons; [reflexivity | discriminate | vm_compute; intuition discriminate].
    + apply (V Same).
Qed.
Lemma file_read l : forall items txt, decode_items l = Some items -> Forall readable_code l -> print_x64 l = Ok txt ->
  read_file txt = Some items.
Proof.
  unfold read_file. induction l as [|c l IH]; intros items txt D R H.
  - injection D as <-. injection H as <-. reflexivity.
  - cbn [decode_items] in D. destruct (decode_item c) as [it |] eqn:Dc; [| discriminate].
    destruct (decode_items l) as [t |]; [| discriminate]. injection D as <-. inversion R as [| ? ? Rc Rl]; subst.
    cbn [print_x64] in H. destruct (x64_tostring c) as [s | | | |] eqn:Sc; try discriminate. cbn [bind] in H.
    destruct (print_x64 l) as [u | | | |]; try discriminate. injection H as <-.
    rewrite (code_read _ _ _ _ Dc Rc Sc). now rewrite (IH t u).
Qed.

(** ** Buffers *)
(** names that fit *)
Definition short (n : Z) (s : name) : Prop := Z.of_nat (length s) <= n.
Definition lit_range (i : iliteral) : Prop := - 2 ^ 63 <= sval i < 2 ^ 63 /\ 0 <= uval i < 2 ^ 64.
Definition fits_ope (o : xope) : Prop :=
  match o with
  | X64_OPERAND_REG s _ => s <> X64_SUFFIX_NONE
  | X64_OPERAND_MEM off => - 2 ^ 31 < off < 2 ^ 31
  | X64_OPERAND_LABEL n => short 43 n
  | X64_OPERAND_JLABEL n => short 49 n
  | X64_OPERAND_INT _ i => lit_range i
  | _ => True
  end.
Lemma dec_digits_length f : forall n, (length (dec_digits f n) <= f)%nat.
Proof.
  induction f as [|f IH]; intros n; [cbn; lia |]. cbn [dec_digits]. destruct (n <? 10); [cbn; lia |].
  rewrite app_length. cbn [length]. specialize (IH (n / 10)). lia.
Qed.
Lemma dec_digits_bound k : forall f n, 0 <= n < 10 ^ Z.of_nat k -> (length (dec_digits f n) <= Nat.max k 1)%nat.
Proof.
  induction k as [|k IH]; intros f n H.
  - change (10 ^ Z.of_nat 0) with 1 in H. destruct f; cbn [dec_digits]; [cbn; lia |]. replace (n <? 10) with true by lia. cbn; lia.
  - destruct f; cbn [dec_digits]; [cbn; lia |]. destruct (n <? 10) eqn:E; [cbn; lia |].
    rewrite app_length. cbn [length].
    assert (K : 0 <= n / 10 < 10 ^ Z.of_nat k).
    { split; [apply Z.div_pos; lia |]. apply Z.div_lt_upper_bound; [lia |].
      rewrite Nat2Z.inj_succ, Z.pow_succ_r in H by lia. lia. }
    specialize (IH f _ K). destruct k as [|k]; [change (10 ^ Z.of_nat 0) with 1 in K |]; [| lia].
    assert (n / 10 >= 1) by (apply Z.le_ge, Z.div_le_lower_bound; lia). lia.
Qed.
Lemma print_unsigned_length n : 0 <= n < 2 ^ 64 -> (length (print_unsigned n) <= 20)%nat.
Proof. intros H. unfold print_unsigned. apply (dec_digits_bound 20). change (10 ^ Z.of_nat 20) with 100000000000000000000. lia. Qed.
Lemma print_signed_length n : - 2 ^ 63 <= n < 2 ^ 63 -> (length (print_signed n) <= 21)%nat.
Proof.
  intros H. unfold print_signed. destruct (n <? 0) eqn:E; cbn [length].
  - pose proof (print_unsigned_length (- n)). lia.
  - pose proof (print_unsigned_length n). lia.
Qed.
Lemma display_length i : lit_range i -> (length (iliteral_display i) <= 21)%nat.
Proof.
  intros (A & B). unfold iliteral_display. destruct (iliteral_isunsigned i).
  - pose proof (print_unsigned_length _ B). lia.
  - now apply print_signed_length.
Qed.
Lemma in_buffer_fits cap s : Z.of_nat (length s) + 1 <= cap -> in_buffer cap s = Ok s.
Proof. intros H. unfold in_buffer. replace (_ <=? cap) with true by lia. reflexivity. Qed.
Lemma ope_fits o : fits_ope o -> exists s, x64ope_tostring o = Ok s /\ (length s <= 49)%nat.
Proof.
  intros F. destruct o as [s | s r | r | r | off | n | n | s i]; cbn [fits_ope] in F; cbn [x64ope_tostring].
  - exists []. split; [reflexivity | cbn; lia].
  - destruct s; try contradiction; cbn [reg_name]; eexists; (split; [reflexivity |]); destruct r; cbn; lia.
  - cbn [reg_name bind]. eexists. split; [apply in_buffer_fits |]; destruct r; cbn; lia.
  - cbn [reg_name bind]. eexists. split; [apply in_buffer_fits |]; destruct r; cbn; lia.
  - cbn [reg_name bind]. pose proof (print_signed_length (- off) ltac:(lia)) as P.
    eexists. split; [apply in_buffer_fits |]; rewrite app_length; change (length (bytes "(" ++ QREG_NAME BP_REG_ID ++ bytes ")")) with 6%nat; lia.
  - unfold short in F. eexists. split; [apply in_buffer_fits |]; rewrite app_length; change (length (bytes "(" ++ PC_NAME ++ bytes ")")) with 6%nat; lia.
  - unfold short in F. eexists. split; [apply in_buffer_fits |]; lia.
  - pose proof (display_length i F). eexists. split; [apply in_buffer_fits |]; change (bytes "$" ++ iliteral_display i) with (36 :: iliteral_display i); cbn [length]; lia.
Qed.
Definition fits_opt (o : option xope) : Prop := match o with Some o => fits_ope o | None => True end.
Lemma sprintf_length fmt : forall args, (length (sprintf_c fmt args) <= length fmt)%nat.
Proof.
  assert (K : forall n fmt args, (length fmt <= n)%nat -> (length (sprintf_c fmt args) <= length fmt)%nat).
  { induction n as [|n IH]; intros f args Hn.
    - destruct f; [cbn; lia | cbn in Hn; lia].
    - destruct f as [|c f]; [cbn; lia |]. cbn [length] in Hn.
      assert (D : forall g a, (length g <= n)%nat -> (length (sprintf_c g a) <= length g)%nat) by (intros; now apply IH).
      cbn [sprintf_c].
      repeat match goal with |- context [match ?x with _ => _ end] => destruct x; cbn [length] in * end;
      repeat match goal with |- context [sprintf_c ?g ?a] => assert_fails (assert (length (sprintf_c g a) <= length g)%nat by assumption); pose proof (D g a ltac:(cbn [length] in *; lia)) end;
      cbn [length] in *; lia. }
  intros args. now apply (K (length fmt)).
Qed.
Lemma cstr_length s : (length (cstr s) <= length s)%nat.
Proof. induction s as [|c s IH]; [cbn; lia |]. cbn [cstr]. destruct (c =? 0); cbn [length]; lia. Qed.
Lemma format_length t : (length (x64_inst_format t) <= 8)%nat.
Proof. destruct t; cbn; lia. Qed.
(** the two-suffix instructions read both operands *)
Definition has_operands (t : xinst) (src dst : option xope) : Prop :=
  match t with
  | X64_INST_MOVSXX | X64_INST_MOVZXX | X64_INST_CXTX => src <> None /\ dst <> None
  | _ => True
  end.
Lemma code_fits t src dst : has_operands t src dst -> exists c, x64instcode_tostring t src dst = Ok c /\ (length c <= 8)%nat.
Proof.
  intros H.
  assert (K : forall args, (length (cstr (sprintf_c (x64_inst_format t) args)) <= 8)%nat).
  { intros args. pose proof (cstr_length (sprintf_c (x64_inst_format t) args)). pose proof (sprintf_length (x64_inst_format t) args).
    pose proof (format_length t). lia. }
  pose proof (format_length t) as F.
  destruct t; cbn [x64instcode_tostring has_operands] in *;
    try (eexists; split; [reflexivity | first [exact (K _) | exact F]]);
    destruct H as (Hs & Hd); destruct src; [| contradiction | | contradiction | | contradiction]; destruct dst; try contradiction;
    cbn [deref bind]; eexists; (split; [reflexivity | exact (K _)]).
Qed.
Lemma shown_fits o a : fits_opt o -> shown o = Some a -> fits_ope a.
Proof. destruct o as [[]|]; cbn; intros F E; try discriminate; injection E as <-; exact F. Qed.
Lemma inst_fits t src dst : has_operands t src dst -> fits_opt src -> fits_opt dst ->
  exists s, x64inst_tostring t src dst = Ok s.
Proof.
  intros H Fs Fd. unfold x64inst_tostring. destruct (code_fits t src dst H) as (c & -> & C). cbn [bind].
  pose proof (shown_fits src) as Ss. pose proof (shown_fits dst) as Sd.
  destruct (shown src) as [a |]; destruct (shown dst) as [b |];
    repeat match goal with
    | S : forall a, fits_opt src -> Some ?x = Some a -> _ |- _ => destruct (ope_fits x (S x Fs eq_refl)) as (ta & Ta & La); rewrite Ta; clear S
    | S : forall a, fits_opt dst -> Some ?x = Some a -> _ |- _ => destruct (ope_fits x (S x Fd eq_refl)) as (tb & Tb & Lb); rewrite Tb; clear S
    end; cbn [bind]; eexists; apply in_buffer_fits;
    rewrite !app_length; change (length (bytes "	")) with 1%nat; change (length (bytes ", ")) with 2%nat; cbn [length]; lia.
Qed.
Lemma label_fits t v n : short 89 n -> exists s, x64label_tostring t v n = Ok s.
Proof.
  intros H. unfold short in H. unfold x64label_tostring. eexists. apply in_buffer_fits. rewrite !app_length.
  change (length (bytes ":")) with 1%nat. cbn [length].
  assert (A : (length (match t with X64_LABEL_FUNCTION => bytes "	.text" ++ [10%Z] | X64_LABEL_VARIABLE => bytes "	.data" ++ [10%Z] | X64_LABEL_NORMAL => [] end) <= 7)%nat)
    by (destruct t; cbn; lia).
  assert (B : (length (match v with X64_VIS_GLOBAL => bytes "	.globl " ++ n ++ [10%Z] | X64_VIS_LOCAL => bytes "	.local " ++ n ++ [10%Z] | X64_VIS_NONE => [] end) <= 9 + length n)%nat)
    by (destruct v; rewrite ?app_length; cbn [length]; try change (length (bytes "	.globl ")) with 8%nat; try change (length (bytes "	.local ")) with 8%nat; lia).
  lia.
Qed.
Lemma int_data_fits t i : t <> X64_DATA_STR -> lit_range i -> exists s, x64data_tostring t (Some i) None = Ok s.
Proof.
  intros T R. pose proof (display_length i R) as L. unfold x64data_tostring.
  destruct t; try contradiction; cbn [deref bind]; eexists; apply in_buffer_fits; rewrite !app_length; cbn [length];
    match goal with |- context [data_directive ?t] => change (length (data_directive t)) with 7%nat end; lia.
Qed.
Lemma str_data_fits s : Forall (fun c => 0 <= c <= 127) s -> Z.of_nat (length s) <= 47 -> exists t, x64data_tostring X64_DATA_STR None (Some s) = Ok t.
Proof.
  intros H L. unfold x64data_tostring. cbn [deref bind]. rewrite display_spec by assumption. cbn [bind]. eexists. apply in_buffer_fits.
  rewrite !app_length. change (length (data_directive X64_DATA_STR)) with 8%nat. cbn [spell length]. rewrite app_length. cbn [length].
  assert (E : (length (elems_text (List.map celem s)) <= 4 * length s)%nat).
  { clear L. induction H as [|c s Hc _ IH]; [cbn; lia |]. cbn [List.map]. unfold elems_text. cbn [flat_map]. rewrite app_length.
    fold (elems_text (List.map celem s)). cbn [length].
    assert (K : Nat.leb (length (elem_text (celem c))) 4 = true)
      by (apply (check_seven (fun c => Nat.leb (length (elem_text (celem c))) 4)); [vm_compute; reflexivity | exact Hc]).
    apply Nat.leb_le in K. lia. }
  lia.
Qed.
