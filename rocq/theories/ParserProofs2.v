(** The token list of the lexer always ends in EOF, so the parser is total on every lexed source. *)
From Verif Require Import Base LiteralModel LexerModel AstModel ParserModel ParserProofs.

Lemma tokens_loop_ended : forall f cs ts, tokens_loop f cs = Ok ts -> ended ts.
Proof.
  induction f as [|f IH]; intros cs ts H; [discriminate|]. cbn [tokens_loop] in H.
  destruct (read_token f cs) as [[t cs1]| | | |]; cbn [bind fst snd] in H; try discriminate.
  assert (Hc : t = TTok CtEOF \/ exists cs', exists ts', tokens_loop f cs' = Ok ts' /\ ts = t :: ts').
  { destruct t as [[]| | | |]; first [left; reflexivity|right];
    (destruct (skip_white_spaces cs1); cbn [bind] in H; try discriminate;
     match type of H with context [tokens_loop f ?x] => destruct (tokens_loop f x) eqn:E end; cbn [bind] in H; try discriminate;
     injection H as <-; eauto). }
  destruct Hc as [->|(cs' & ts' & H1 & ->)].
  - injection H as <-. reflexivity.
  - apply IH in H1. destruct ts'; [destruct H1|]. destruct t as [[]| | | |]; exact H1.
Qed.

Lemma lex_ended f cs ts : lex f cs = Ok ts -> ended ts.
Proof. unfold lex. destruct (skip_white_spaces (until_nul cs)); cbn [bind]; try discriminate. apply tokens_loop_ended. Qed.
