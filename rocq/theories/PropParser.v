(** Properties of the parser (C11). *)
From Verif Require Import Base LiteralModel LexerModel AstModel ParserModel ParserProofs ParserProofs2.

(** C11: on every token list that the lexer produces, parsing ends with a tree or with a reported
    error: never out of fuel, never reading past the tokens, never a fatal abort. *)
Theorem C11_parser_total : forall fuel src ts, lex fuel src = Ok ts ->
  (exists a, parse_tokens ts = Ok a) \/ parse_tokens ts = Err.
Proof. intros fuel src ts H. exact (parse_tokens_total ts (lex_ended fuel src ts H)). Qed.
Print Assumptions C11_parser_total.
Example C11_case_ok : exists ts a, lex 60 (bytes "int f(int x){return x*2+1;}") = Ok ts /\ parse_tokens ts = Ok a.
Proof. eexists. eexists. split; vm_compute; reflexivity. Qed.
Example C11_case_err : exists ts, lex 60 (bytes "int f(int x){return (x*2+1;}") = Ok ts /\ parse_tokens ts = Err.
Proof. eexists. split; vm_compute; reflexivity. Qed.

(** The same for any list of tokens with EOF at its end, whether or not some text spells it. *)
Theorem C11_parser_total_tokens : forall ts, ended ts -> (exists a, parse_tokens ts = Ok a) \/ parse_tokens ts = Err.
Proof. exact parse_tokens_total. Qed.
Print Assumptions C11_parser_total_tokens.
Example C11_tokens_case : ended [TTok KwIf; TTok KwIf; TTok CtEOF] /\ parse_tokens [TTok KwIf; TTok KwIf; TTok CtEOF] = Err.
Proof. split; vm_compute; reflexivity. Qed.
