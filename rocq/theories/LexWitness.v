(** Concrete counterexamples for the lexer. *)
From Verif Require Import Base MapModel SetModel MapSpec MapProofs MapProofs2 SetProofs LiteralModel LexerModel LexSpec LexProofs LexProofs2 LexProofs3 LexProofs4.
Local Open Scope Z_scope.

Ltac charlist := match goal with |- Forall ?P ?l => let l' := eval vm_compute in l in change (Forall P l') end;
  repeat (apply Forall_cons; [unfold ascii, is_char; lia|]); apply Forall_nil.

Lemma unterminated : exists content, Forall ascii content /\ forall fuel, lex fuel content = Fuel.
Proof.
  exists [34; 97]. split; [charlist|]. intros fuel.
  destruct (lex_settles [34; 97]) as (r & H1 & H2); [charlist|].
  assert (r = Fuel) as ->. { rewrite <- (H1 10%nat) by (cbn; lia). vm_compute. reflexivity. }
  destruct (H2 fuel); assumption.
Qed.

Lemma lex_terminates content : Forall is_char content -> last_newline (until_nul content) ->
  exists r, r <> Fuel /\ (forall fuel, (length content + 2 <= fuel)%nat -> lex fuel content = r) /\
    (forall fuel, lex fuel content = Fuel \/ lex fuel content = r).
Proof.
  intros Hc Hl. destruct (lex_settles content Hc) as (r & H1 & H2). exists r. split; [|auto].
  rewrite <- (H1 (length content + 2)%nat) by lia. apply lex_newline; [assumption|assumption|lia].
Qed.

Lemma lex_bound content : Forall is_char content ->
  (exists r, r <> Fuel /\ forall fuel, (length content + 2 <= fuel)%nat -> lex fuel content = r) \/
  (forall fuel, lex fuel content = Fuel).
Proof.
  intros Hc. destruct (lex_settles content Hc) as (r & H1 & H2).
  destruct r; [left; eexists; split; [|exact H1]; discriminate..|]. right. intros fuel. destruct (H2 fuel); assumption.
Qed.

Lemma lex_one_eof fuel content ts : Forall is_char content -> lex fuel content = Ok ts ->
  exists us, ts = us ++ [TTok CtEOF] /\ ~ In (TTok CtEOF) us.
Proof.
  intros Hc H. apply lex_sound in H; [|assumption]. destruct H as (ws & l & rest & _ & _ & Hok & _ & Hm).
  revert ts Hm. induction l as [|[s w] l IH]; intros ts Hm; cbn [List.map fst app] in Hm.
  - destruct ts as [|t [|]]; try discriminate. injection Hm as <-. exists []. split; [reflexivity|intros []].
  - destruct Hok as (Ho & _ & Hok). destruct ts as [|t ts]; [discriminate|]. cbn [List.map] in Hm. injection Hm as Ht Hm.
    destruct (IH Hok ts Hm) as (us & -> & Hn). exists (t :: us). split; [reflexivity|]. intros [->|Hin]; [|auto].
    apply meaning_not_eof in Ho. congruence.
Qed.

Definition text (s : string) : list Z := bytes s.

Lemma high_bit_ub : exists content, Forall is_char content /\ forall fuel, (2 <= fuel)%nat -> lex fuel content = UB.
Proof.
  exists (text ";" ++ [-61; -87; 10]). split; [charlist|].
  intros [|[|f]] Hf; [lia|lia|]. vm_compute. reflexivity.
Qed.

Lemma big_hex_ub : exists content, Forall ascii content /\ lex (2 * length content + 4) content = UB.
Proof.
  exists (34 :: 92 :: 120 :: text "123456789" ++ [34; 10]). split; [charlist|]. vm_compute. reflexivity.
Qed.

Lemma type_by_suffix : exists content, lex (2 * length content + 4) (content ++ [10]) =
  Ok [TInt (mkil IInt 4294967296 0); TTok CtEOF].
Proof. exists (text "4294967296"). vm_compute. reflexivity. Qed.

Lemma bad_octal : exists content, lex (2 * length content + 4) (content ++ [10]) =
  Ok [TInt (mkil IInt 0 0); TInt (mkil IInt 9 0); TTok CtEOF].
Proof. exists (text "09"). vm_compute. reflexivity. Qed.

Lemma ff_eof : exists a b, b <> [] /\ Forall is_char (a ++ b) /\ lex (2 * length (a ++ b) + 4) (a ++ b) = lex (2 * length a + 4) a /\
  is_ok (lex (2 * length a + 4) a) = true.
Proof.
  exists (text "int x;"), (-1 :: text " int y;"). split; [discriminate|]. split; [charlist|].
  split; vm_compute; reflexivity.
Qed.
Lemma nul_eof : exists a b, b <> [] /\ Forall (fun c => 0 <= c <= 127) (a ++ b) /\ lex (2 * length (a ++ b) + 4) (a ++ b) = lex (2 * length a + 4) a /\
  is_ok (lex (2 * length a + 4) a) = true.
Proof.
  exists (text "int x;"), (0 :: text " int y;"). split; [discriminate|]. split; [charlist|].
  split; vm_compute; reflexivity.
Qed.

Lemma display_overflow : exists s, Forall is_char s /\ sliteral_display s = UB.
Proof. exists [-61; 0]. split; [charlist|]. vm_compute. reflexivity. Qed.
Lemma display_wrong : exists s txt, Forall is_char s /\ sliteral_display s = Ok (34 :: txt) /\ gas_ascii txt <> Some s /\
  exists txt' s', sliteral_display s' = Ok (34 :: txt') /\ s' <> s /\ txt' = txt.
Proof.
  exists ([-61; -87] ++ text "abcd" ++ [0]). eexists. split; [charlist|]. split; [vm_compute; reflexivity|].
  split; [vm_compute; discriminate|]. eexists. exists ([-61; -86] ++ text "abcd" ++ [0]). split; [vm_compute; reflexivity|]. split; [vm_compute; discriminate|reflexivity].
Qed.
Lemma display_bell : exists txt, sliteral_display [7; 0] = Ok (34 :: txt) /\ gas_ascii txt = Some [97; 0].
Proof. eexists. split; vm_compute; reflexivity. Qed.

(** every byte of the source, when none of it reads as end of file *)
Lemma lex_consumes fuel content ts : Forall (fun c => is_char c /\ c <> 0 /\ c <> -1) content -> lex fuel content = Ok ts ->
  exists ws l, content = ws ++ text_of l [] /\ forallb space ws = true /\ text_ok l [] /\
    List.map (fun p => meaning (fst p)) l ++ [Some (TTok CtEOF)] = List.map Some ts.
Proof.
  intros Hc H. assert (Hc' : Forall is_char content) by (eapply Forall_impl; [|exact Hc]; cbn; tauto).
  assert (Hu : until_nul content = content).
  { clear H Hc'. induction Hc as [|c t H Hc IH]; [reflexivity|]. cbn. replace (c =? 0) with false by lia. rewrite IH. reflexivity. }
  apply lex_sound in H; [|assumption]. rewrite Hu in H. destruct H as (ws & l & rest & -> & H1 & H2 & H3 & H4).
  assert (rest = []) as ->.
  { destruct H3 as [->|(r & ->)]; [reflexivity|]. exfalso. apply Forall_app in Hc. destruct Hc as (_ & Hc). clear - Hc.
    induction l as [|[s w] l IH]; cbn [text_of] in Hc; [inversion Hc; tauto|].
    apply Forall_app in Hc. destruct Hc as (_ & Hc). apply Forall_app in Hc. destruct Hc as (_ & Hc). auto. }
  exists ws, l. auto.
Qed.
