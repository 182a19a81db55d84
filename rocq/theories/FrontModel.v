(** The front end *)
From Verif Require Import Base AstModel SrtModel LexerModel ParserModel ResolverModel.

(** main.c:47-86: lexer, parser and resolver, one after the other *)
Definition front (src : list Z) : res srt := do tokens <- lex_source src; do tree <- parse_tokens tokens; resolve tree.
