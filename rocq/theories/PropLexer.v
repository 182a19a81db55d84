(** C06-C10: the lexer. *)
From Verif Require Import Base LiteralModel LexerModel LexSpec LexProofs2 LexProofs3 LexProofs4 LexWitness.
Local Open Scope Z_scope.

(** C06.  Running out of fuel at every amount of fuel is non-termination.  The full property is false:
    an unterminated literal at the end of the file is read forever. *)
Theorem C06_unterminated_refuted : exists content, Forall ascii content /\ forall fuel, lex fuel content = Fuel.
Proof. exact unterminated. Qed.
Print Assumptions C06_unterminated_refuted.

(** Texts ending in a newline are always lexed in finitely many steps, with one result. *)
Theorem C06_terminates_partial : forall content, Forall is_char content -> last_newline (until_nul content) ->
  exists r, r <> Fuel /\ (forall fuel, (length content + 2 <= fuel)%nat -> lex fuel content = r) /\
    (forall fuel, lex fuel content = Fuel \/ lex fuel content = r).
Proof. exact lex_terminates. Qed.
Print Assumptions C06_terminates_partial.

Example C06_case : last_newline (until_nul (bytes "int main" ++ [10])) /\
  lex 11 (bytes "int main" ++ [10]) = Ok [TTok KwInt; TIdent (bytes "main"); TTok CtEOF].
Proof. split; [right; exists (bytes "int main"); vm_compute; reflexivity|vm_compute; reflexivity]. Qed.

(** Any text: either one result from [length content + 2] steps on, or no termination at all. *)
Theorem C06_bound : forall content, Forall is_char content ->
  (exists r, r <> Fuel /\ forall fuel, (length content + 2 <= fuel)%nat -> lex fuel content = r) \/
  (forall fuel, lex fuel content = Fuel).
Proof. exact lex_bound. Qed.
Print Assumptions C06_bound.

Theorem C06_one_eof : forall fuel content ts, Forall is_char content -> lex fuel content = Ok ts ->
  exists us, ts = us ++ [TTok CtEOF] /\ ~ In (TTok CtEOF) us.
Proof. exact lex_one_eof. Qed.
Print Assumptions C06_one_eof.

(** On 7-bit texts the only undefined behaviour is a \x escape beyond int; with high-bit characters
    there is more. *)
Theorem C06_defined : forall fuel content, Forall (fun c => 0 <= c <= 127) content -> ~ big_hex content ->
  lex fuel content <> UB /\ lex fuel content <> Fatal.
Proof. exact lex_fine. Qed.
Print Assumptions C06_defined.
Theorem C06_hex_escape_refuted : exists content, Forall ascii content /\ lex (2 * length content + 4) content = UB.
Proof. exact big_hex_ub. Qed.
Print Assumptions C06_hex_escape_refuted.
Theorem C06_high_bit_refuted : exists content, Forall is_char content /\ forall fuel, (2 <= fuel)%nat -> lex fuel content = UB.
Proof. exact high_bit_ub. Qed.
Print Assumptions C06_high_bit_refuted.

(** C07: any sequence of well-formed tokens, each followed by white space, is read back as that
    sequence and then end of file. *)
Theorem C07_round_trip : forall ws0 l fuel, forallb space ws0 = true ->
  Forall (fun p => well_spelled (fst p) /\ Forall ascii (spell (fst p)) /\ snd p <> [] /\ forallb space (snd p) = true) l ->
  (length (text_of l []) + 1 < fuel)%nat ->
  exists ts, List.map (fun p => meaning (fst p)) l = List.map Some ts /\ lex fuel (ws0 ++ text_of l []) = Ok (ts ++ [TTok CtEOF]).
Proof. exact lex_separated. Qed.
Print Assumptions C07_round_trip.

(** Longest match: without separators, the same for any text in which every token is maximal. *)
Theorem C07_longest_match : forall ws0 l fuel, forallb space ws0 = true -> Forall ascii (text_of l []) -> text_ok l [] ->
  (length (text_of l []) + 1 < fuel)%nat ->
  exists ts, List.map (fun p => meaning (fst p)) l = List.map Some ts /\ lex fuel (ws0 ++ text_of l []) = Ok (ts ++ [TTok CtEOF]).
Proof. exact lex_complete. Qed.
Print Assumptions C07_longest_match.

Example C07_case :
  let l := [(SWord 97 [49], [32]); (SPunct (bytes "<<="), [9]); (SHex 88 (bytes "fF") (bytes "uLL"), [10; 32]);
            (SChar (Simple 110) [], [32]); (SStr [Plain 65; Oct [49; 48; 49]; Hex [52; 49]], [32]);
            (SWord 105 (bytes "nt"), [32])] in
  Forall (fun p => well_spelled (fst p) /\ Forall ascii (spell (fst p)) /\ snd p <> [] /\ forallb space (snd p) = true) l /\
  lex 100 (text_of l []) = Ok [TIdent (bytes "a1"); TTok LessLessEqual; TInt (mkil IULongLong (-1) 255);
    TChar (mkil IInt 10 0); TStr [65; 65; 65; 0]; TTok KwInt; TTok CtEOF].
Proof.
  split; [|vm_compute; reflexivity].
  repeat match goal with
  | |- Forall _ (_ :: _) => constructor
  | |- Forall _ [] => constructor
  | |- _ /\ _ => split
  | |- ascii _ => unfold ascii; lia
  | |- _ \/ _ => right; reflexivity
  | |- _ = true => vm_compute; reflexivity
  | |- _ <> _ => vm_compute; discriminate
  | |- well_spelled _ => cbn [well_spelled fst]
  end; cbn; unfold ascii; try lia; repeat constructor; unfold ascii; try lia.
Qed.

(** C08: an integer constant has its mathematical value (clamped at the widest type) and the type
    named by its suffix. *)
Theorem C08_value_partial : forall s ty v fuel,
  match s with
  | SHex _ ds suf => well_spelled s /\ suffix_type suf = Some ty /\ v = number 16 ds
  | SOct ds suf => well_spelled s /\ suffix_type suf = Some ty /\ v = number 8 ds
  | SDec d ds suf => well_spelled s /\ suffix_type suf = Some ty /\ v = number 10 (d :: ds)
  | _ => False
  end -> (length (spell s) + 2 < fuel)%nat ->
  lex fuel (spell s ++ [10]) =
    Ok [TInt (if iltype_isunsigned ty then mkil ty (-1) (Z.min v ULLONG_MAX) else mkil ty (Z.min v LLONG_MAX) 0); TTok CtEOF].
Proof. exact int_lex. Qed.
Print Assumptions C08_value_partial.

Example C08_case : well_spelled (SDec 52 (bytes "2") (bytes "UL")) /\ suffix_type (bytes "UL") = Some IULong /\ number 10 (52 :: bytes "2") = 42.
Proof. split; [|vm_compute; auto]. cbn. repeat split; vm_compute; try reflexivity; discriminate. Qed.

(** The rest of the property is false: the type does not depend on the value, ... *)
Theorem C08_type_refuted : exists content, lex (2 * length content + 4) (content ++ [10]) =
  Ok [TInt (mkil IInt 4294967296 0); TTok CtEOF].
Proof. exact type_by_suffix. Qed.
Print Assumptions C08_type_refuted.
(** ... and 09 is accepted, as the two constants 0 and 9. *)
Theorem C08_bad_octal_refuted : exists content, lex (2 * length content + 4) (content ++ [10]) =
  Ok [TInt (mkil IInt 0 0); TInt (mkil IInt 9 0); TTok CtEOF].
Proof. exact bad_octal. Qed.
Print Assumptions C08_bad_octal_refuted.

(** C09: the emitted text of a string literal, assembled, gives back its bytes: 7-bit bytes other than
    7 and 11. *)
Theorem C09_ascii_partial : forall s, Forall (fun c => 0 <= c <= 127 /\ c <> 7 /\ c <> 11) s ->
  exists txt, sliteral_display s = Ok (34 :: txt) /\ gas_ascii txt = Some s.
Proof. exact display_gas. Qed.
Print Assumptions C09_ascii_partial.
Example C09_case : Forall (fun c => 0 <= c <= 127 /\ c <> 7 /\ c <> 11) (bytes "a%d" ++ [10; 34; 92; 1; 127; 0]).
Proof. charlist. Qed.

(** The same text read as a C string literal gives back the bytes of every 7-bit string. *)
Theorem C09_source_round_trip : forall s, Forall (fun c => 0 <= c <= 127) s -> exists txt, sliteral_display s = Ok txt /\
  forall fuel, (length txt + 2 < fuel)%nat -> lex fuel (txt ++ [10]) = Ok [TStr (s ++ [0]); TTok CtEOF].
Proof. exact display_lex. Qed.
Print Assumptions C09_source_round_trip.

(** The escape sequences denote the values of C ([elem_value] in LexSpec), inside strings and
    character constants, whatever follows. *)
Theorem C09_escapes : forall q e rest, is_plain e = true -> elem_ok q e rest = true -> Forall is_char (elem_text e ++ rest) ->
  read_escape (tl (elem_text e) ++ rest) = Ok (elem_value e, rest).
Proof. exact esc_complete. Qed.
Print Assumptions C09_escapes.
Example C09_escape_case : elem_ok 34 (Oct [49; 50; 51]) [52] = true /\ elem_value (Oct [49; 50; 51]) = 83 /\
  elem_ok 34 (Simple 118) [] = true /\ elem_value (Simple 118) = 11.
Proof. vm_compute. auto. Qed.

(** False for the other bytes. *)
Theorem C09_overflow_refuted : exists s, Forall is_char s /\ sliteral_display s = UB.
Proof. exact display_overflow. Qed.
Print Assumptions C09_overflow_refuted.
Theorem C09_high_bit_refuted : exists s txt, Forall is_char s /\ sliteral_display s = Ok (34 :: txt) /\ gas_ascii txt <> Some s /\
  exists txt' s', sliteral_display s' = Ok (34 :: txt') /\ s' <> s /\ txt' = txt.
Proof. exact display_wrong. Qed.
Print Assumptions C09_high_bit_refuted.
Theorem C09_bell_refuted : exists txt, sliteral_display [7; 0] = Ok (34 :: txt) /\ gas_ascii txt = Some [97; 0].
Proof. exact display_bell. Qed.
Print Assumptions C09_bell_refuted.

(** C10: a text without the bytes 0 and 255 that is lexed successfully consists of white space and the
    spellings of exactly the returned tokens, each maximal. *)
Theorem C10_all_consumed_partial : forall fuel content ts, Forall (fun c => is_char c /\ c <> 0 /\ c <> -1) content -> lex fuel content = Ok ts ->
  exists ws l, content = ws ++ text_of l [] /\ forallb space ws = true /\ text_ok l [] /\
    List.map (fun p => meaning (fst p)) l ++ [Some (TTok CtEOF)] = List.map Some ts.
Proof. exact lex_consumes. Qed.
Print Assumptions C10_all_consumed_partial.
Example C10_case : Forall (fun c => is_char c /\ c <> 0 /\ c <> -1) (bytes "x=1;") /\
  lex 20 (bytes "x=1;") = Ok [TIdent [120]; TTok Equal; TInt (mkil IInt 1 0); TTok Semicolon; TTok CtEOF].
Proof. split; [|vm_compute; reflexivity]. charlist. Qed.

(** With them, text is dropped: what follows byte 255 or byte 0 is ignored. *)
Theorem C10_byte255_refuted : exists a b, b <> [] /\ Forall is_char (a ++ b) /\ lex (2 * length (a ++ b) + 4) (a ++ b) = lex (2 * length a + 4) a /\
  is_ok (lex (2 * length a + 4) a) = true.
Proof. exact ff_eof. Qed.
Print Assumptions C10_byte255_refuted.
Theorem C10_nul_refuted : exists a b, b <> [] /\ Forall (fun c => 0 <= c <= 127) (a ++ b) /\ lex (2 * length (a ++ b) + 4) (a ++ b) = lex (2 * length a + 4) a /\
  is_ok (lex (2 * length a + 4) a) = true.
Proof. exact nul_eof. Qed.
Print Assumptions C10_nul_refuted.
