(** Model of src/ctoken and src/lexer. *)
From Verif Require Import Base MapModel SetModel LiteralModel.
Local Open Scope Z_scope.

(** ctoken/ctoken.h CTokenType *)
Inductive ctype :=
| KwBreak | KwCase | KwChar | KwContinue | KwDefault | KwElse | KwEnum | KwFor | KwIf | KwInt | KwLong
| KwReturn | KwSizeof | KwStruct | KwSwitch | KwTypedef | KwUnsigned | KwVoid | KwWhile
| CtIdent | CtInt | CtChar | CtString
| LBracket | RBracket | LParen | RParen | LBrace | RBrace | Dot | Arrow | PlusPlus | MinusMinus | And
| Asterisk | Plus | Minus | Tilde | Exclam | Slash | Percent | LessLess | GreaterGreater | Less | Greater
| LessEqual | GreaterEqual | EqualEqual | ExclamEqual | Caret | VBar | AndAnd | VBarVBar | Question
| Colon | Semicolon | Equal | AsteriskEqual | SlashEqual | PercentEqual | PlusEqual | MinusEqual
| LessLessEqual | GreaterGreaterEqual | AndEqual | CaretEqual | VBarEqual | Comma | CtEOF.

Definition ctype_eq_dec (a b : ctype) : {a = b} + {a <> b}.
Proof. decide equality. Defined.
Definition ctype_eqb (a b : ctype) : bool := if ctype_eq_dec a b then true else false.

(** ctoken/ctoken.h CToken: exactly the field matching the type is non-NULL *)
Inductive token :=
| TTok (t : ctype)
| TIdent (n : name)
| TInt (i : iliteral)
| TChar (i : iliteral)
| TStr (s : sliteral).
Definition ttype (t : token) : ctype :=
  match t with TTok t => t | TIdent _ => CtIdent | TInt _ => CtInt | TChar _ => CtChar | TStr _ => CtString end.

(** lexer/util.c:10-34 new_keyword_map *)
Definition keyword_table : list (name * ctype) :=
  [(bytes "break", KwBreak); (bytes "case", KwCase); (bytes "char", KwChar); (bytes "continue", KwContinue);
   (bytes "default", KwDefault); (bytes "else", KwElse); (bytes "enum", KwEnum); (bytes "for", KwFor);
   (bytes "if", KwIf); (bytes "int", KwInt); (bytes "long", KwLong); (bytes "return", KwReturn);
   (bytes "sizeof", KwSizeof); (bytes "struct", KwStruct); (bytes "switch", KwSwitch);
   (bytes "typedef", KwTypedef); (bytes "unsigned", KwUnsigned); (bytes "void", KwVoid); (bytes "while", KwWhile)].

(** lexer/util.c:36-47 new_nondigit_set: 54 chars, the last one being the terminator *)
Definition nondigit_list : list Z :=
  bytes "_abcdefghijklmnopqrstuvwxyzABCDEFGHIJKLMNOPQRSTUVWXYZ" ++ [0].

(** lexer/util.c:49-60, 62-73, 75-95: digit -> value *)
Definition octdigit_table : list (Z * Z) :=
  [(48, 0); (49, 1); (50, 2); (51, 3); (52, 4); (53, 5); (54, 6); (55, 7)].
Definition digit_table : list (Z * Z) := octdigit_table ++ [(56, 8); (57, 9)].
Definition hexdigit_table : list (Z * Z) :=
  digit_table ++ [(97, 10); (65, 10); (98, 11); (66, 11); (99, 12); (67, 12); (100, 13); (68, 13);
                  (101, 14); (69, 14); (102, 15); (70, 15)].

(** lexer/util.c:97-128 new_integer_suffix_map *)
Definition suffix_table : list (name * iltype) :=
  [(bytes "l", ILong); (bytes "L", ILong); (bytes "ll", ILongLong); (bytes "LL", ILongLong);
   (bytes "u", IUInt); (bytes "U", IUInt);
   (bytes "ul", IULong); (bytes "Ul", IULong); (bytes "uL", IULong); (bytes "UL", IULong);
   (bytes "lu", IULong); (bytes "Lu", IULong); (bytes "lU", IULong); (bytes "LU", IULong);
   (bytes "ull", IULongLong); (bytes "Ull", IULongLong); (bytes "uLL", IULongLong); (bytes "ULL", IULongLong);
   (bytes "llu", IULongLong); (bytes "LLu", IULongLong); (bytes "llU", IULongLong); (bytes "LLU", IULongLong)].

(** lexer/util.c:130-180 new_punctuator_map *)
Definition punctuator_table : list (name * ctype) :=
  [(bytes "[", LBracket); (bytes "]", RBracket); (bytes "(", LParen); (bytes ")", RParen);
   (bytes "{", LBrace); (bytes "}", RBrace); (bytes ".", Dot); (bytes "->", Arrow);
   (bytes "++", PlusPlus); (bytes "--", MinusMinus); (bytes "&", And); (bytes "*", Asterisk);
   (bytes "+", Plus); (bytes "-", Minus); (bytes "~", Tilde); (bytes "!", Exclam); (bytes "/", Slash);
   (bytes "%", Percent); (bytes "<", Less); (bytes ">", Greater); (bytes "<<", LessLess);
   (bytes ">>", GreaterGreater); (bytes "<=", LessEqual); (bytes ">=", GreaterEqual);
   (bytes "==", EqualEqual); (bytes "!=", ExclamEqual); (bytes "^", Caret); (bytes "|", VBar);
   (bytes "&&", AndAnd); (bytes "||", VBarVBar); (bytes "?", Question); (bytes ":", Colon);
   (bytes ";", Semicolon); (bytes "=", Equal); (bytes "*=", AsteriskEqual); (bytes "/=", SlashEqual);
   (bytes "%=", PercentEqual); (bytes "+=", PlusEqual); (bytes "-=", MinusEqual);
   (bytes "<<=", LessLessEqual); (bytes ">>=", GreaterGreaterEqual); (bytes "&=", AndEqual);
   (bytes "^=", CaretEqual); (bytes "|=", VBarEqual); (bytes ",", Comma)].

(** lexer/util.c:182-193 new_white_space_set: 5 characters and the terminator *)
Definition white_space_list : list Z := [32; 9; 10; 11; 12; 0].

(** The tables are built with the modelled map and set operations, in the order of the C code. *)
Definition build_map {K V} (keq : K -> K -> bool) (hash : K -> Z) (t : list (K * V)) : res (map K V) :=
  map_run keq hash new_map (List.map (fun kv => MAdd (fst kv) (snd kv)) t).
Definition get_map {A} (m : res (map A Z)) : map A Z := match m with Ok m => m | _ => new_map end.

Definition keyword_map : res (map name ctype) := Eval vm_compute in build_map name_eqb hash_string keyword_table.
Definition punctuator_map : res (map name ctype) := Eval vm_compute in build_map name_eqb hash_string punctuator_table.
Definition suffix_map : res (map name iltype) := Eval vm_compute in build_map name_eqb hash_string suffix_table.
Definition octdigit_map : res (map Z Z) := Eval vm_compute in build_map Z.eqb hash_integer octdigit_table.
Definition digit_map : res (map Z Z) := Eval vm_compute in build_map Z.eqb hash_integer digit_table.
Definition hexdigit_map : res (map Z Z) := Eval vm_compute in build_map Z.eqb hash_integer hexdigit_table.
Definition nondigit_set : res (set Z) := Eval vm_compute in add_all Z.eqb hash_integer nondigit_list new_set.
Definition white_space_set : res (set Z) := Eval vm_compute in add_all Z.eqb hash_integer white_space_list new_set.

Definition lookup_name {V} (m : res (map name V)) (s : name) : res (option V) :=
  do t <- m; map_get name_eqb hash_string t s.
Definition lookup_digit (m : res (map Z Z)) (c : Z) : res (option Z) :=
  do t <- m; map_get Z.eqb hash_integer t c.
Definition is_in_set (s : res (set Z)) (c : Z) : res bool :=
  do t <- s; set_contains Z.eqb hash_integer t c.
Definition is_digit_in (m : res (map Z Z)) (c : Z) : res bool :=
  do t <- m; map_contains Z.eqb hash_integer t c.

(** Lexer state: the characters from content_index to content_size, as signed chars (C `char`).
    An index beyond content_size behaves as the empty remainder. *)
Definition input := list Z.

(** stdio.h EOF *)
Definition EOF : Z := -1.

(** lexer/util.c:203-208 get_content_top *)
Definition get_top (cs : input) : Z := match cs with [] => EOF | c :: _ => c end.
(** content_index++ *)
Definition advance (cs : input) : input := match cs with [] => [] | _ :: t => t end.

(** strtoull/strtoll on digits of the given base: the mathematical value, saturated. *)
Definition digit_value (c : Z) : Z :=
  if (48 <=? c) && (c <=? 57) then c - 48
  else if (97 <=? c) && (c <=? 102) then c - 87
  else c - 55.
Definition digits_value (base : Z) (ds : list Z) : Z :=
  fold_left (fun v c => v * base + digit_value c) ds 0.

(** lexer/util.c:210-218 create_iliteral *)
Definition create_iliteral (ds : list Z) (base : Z) (t : iltype) : iliteral :=
  if iltype_isunsigned t
  then new_unsigned t (Z.min (digits_value base ds) ULLONG_MAX)
  else new_signed t (Z.min (digits_value base ds) LLONG_MAX).

(** lexer/util.c:195-201 skip_white_spaces *)
Fixpoint skip_white_spaces (cs : input) : res input :=
  match cs with
  | [] => do b <- is_in_set white_space_set EOF; if b then Fuel else Ok []
  | c :: t => do b <- is_in_set white_space_set c; if b then skip_white_spaces t else Ok cs
  end.

(** loop of reader.c:21-34: the identifier characters that follow *)
Fixpoint ident_loop (cs : input) : res (list Z * input) :=
  match cs with
  | [] =>
      do b <- is_in_set nondigit_set EOF;
      do d <- is_digit_in digit_map EOF;
      if b || d then Fuel else Ok ([], [])
  | c :: t =>
      do b <- is_in_set nondigit_set c;
      do d <- is_digit_in digit_map c;
      if b || d
      then do r <- ident_loop t; Ok (c :: fst r, snd r)
      else Ok ([], cs)
  end.

(** reader.c:11-47 read_keyword_or_identifier *)
Definition read_keyword_or_identifier (cs : input) : res (token * input) :=
  do r <- ident_loop (advance cs);
  let str := get_top cs :: fst r in
  do k <- lookup_name keyword_map str;
  match k with
  | Some t => Ok (TTok t, snd r)
  | None => Ok (TIdent str, snd r)
  end.

(** loop of reader.c:275-289 *)
Fixpoint digits_loop (m : res (map Z Z)) (cs : input) : res (list Z * input) :=
  match cs with
  | [] => do d <- is_digit_in m EOF; if d then Fuel else Ok ([], [])
  | c :: t =>
      do d <- is_digit_in m c;
      if d then do r <- digits_loop m t; Ok (c :: fst r, snd r) else Ok ([], cs)
  end.

(** reader.c:260-294 read_integer_constant_digits *)
Definition read_digits (m : res (map Z Z)) (cs : input) : res (list Z * input) :=
  do d <- is_digit_in m (get_top cs);
  if d
  then do r <- digits_loop m (advance cs); Ok (get_top cs :: fst r, snd r)
  else Err.

(** reader.c:210-234 and 299-322: up to [n] characters, stopping at EOF (or a char equal to -1) *)
Fixpoint take_chars (n : nat) (cs : input) : list Z :=
  match n, cs with
  | S n', c :: t => if c =? EOF then [] else c :: take_chars n' t
  | _, _ => []
  end.

(** loops of reader.c:237-248 and 325-336: longest prefix of [str] in the table and its length *)
Fixpoint longest_match {V} (m : res (map name V)) (n : nat) (str : list Z) : res (option (V * nat)) :=
  match n with
  | O => Ok None
  | S n' =>
      do o <- lookup_name m (firstn n str);
      match o with
      | Some v => Ok (Some (v, n))
      | None => longest_match m n' str
      end
  end.

(** reader.c:296-343 read_integer_suffix *)
Definition read_suffix (cs : input) : res (iltype * input) :=
  if get_top cs =? EOF then Ok (IInt, cs)
  else
    let str := take_chars 3 cs in
    do o <- longest_match suffix_map (length str) str;
    match o with
    | Some (t, n) => Ok (t, skipn n cs)
    | None => Ok (IInt, cs)
    end.

Definition finish_integer (r : list Z * input) (base : Z) : res (token * input) :=
  do s <- read_suffix (snd r);
  Ok (TInt (create_iliteral (fst r) base (fst s)), snd s).

(** reader.c:49-103 read_integer_constant *)
Definition read_integer_constant (cs : input) : res (token * input) :=
  let fst_ := get_top cs in
  let snd_ := get_top (advance cs) in
  if (fst_ =? 48) && ((snd_ =? 120) || (snd_ =? 88))
  then do r <- read_digits hexdigit_map (advance (advance cs)); finish_integer r 16
  else if fst_ =? 48
  then do r <- read_digits octdigit_map cs; finish_integer r 8
  else do r <- read_digits digit_map cs; finish_integer r 10.

(** reader.c:409-442 read_simple_escape_seqence *)
Definition read_simple_escape (cs : input) : res (Z * input) :=
  let c := get_top cs in
  let cs' := advance cs in
  if c =? 39 then Ok (39, cs') else if c =? 34 then Ok (34, cs') else if c =? 63 then Ok (63, cs')
  else if c =? 92 then Ok (92, cs') else if c =? 97 then Ok (7, cs') else if c =? 98 then Ok (8, cs')
  else if c =? 102 then Ok (12, cs') else if c =? 110 then Ok (10, cs') else if c =? 114 then Ok (13, cs')
  else if c =? 116 then Ok (9, cs') else if c =? 118 then Ok (11, cs') else Err.

(** loop of reader.c:376-384 *)
Fixpoint octal_loop (n : nat) (value : Z) (cs : input) : res (Z * input) :=
  match n with
  | O => Ok (value, cs)
  | S n' =>
      do o <- lookup_digit octdigit_map (get_top cs);
      match o with
      | None => Ok (value, cs)
      | Some d => octal_loop n' (value * 8 + d) (advance cs)
      end
  end.

(** reader.c:367-387 read_octal_escape_seqence *)
Definition read_octal_escape (cs : input) : res (Z * input) :=
  do o <- lookup_digit octdigit_map (get_top cs);
  do d <- deref o;
  octal_loop 2 d (advance cs).

(** loop of reader.c:396-404; overflow of the int [value] is UB *)
Fixpoint hex_loop (value : Z) (cs : input) : res (Z * input) :=
  match cs with
  | [] =>
      do o <- lookup_digit hexdigit_map EOF;
      match o with None => Ok (value, []) | Some _ => Fuel end
  | c :: t =>
      do o <- lookup_digit hexdigit_map c;
      match o with
      | None => Ok (value, cs)
      | Some d => if INT_MAX <? value * 16 + d then UB else hex_loop (value * 16 + d) t
      end
  end.

(** reader.c:389-407 read_hexadecimal_escape_seqence *)
Definition read_hex_escape (cs : input) : res (Z * input) :=
  do o <- lookup_digit hexdigit_map (get_top cs);
  do d <- deref o;
  hex_loop d (advance cs).

(** reader.c:345-365 read_escape_seqence *)
Definition read_escape (cs : input) : res (Z * input) :=
  let fst_ := get_top cs in
  let snd_ := get_top (advance cs) in
  do h <- is_digit_in hexdigit_map snd_;
  if (fst_ =? 120) && h then read_hex_escape (advance cs)
  else
    do o <- is_digit_in octdigit_map fst_;
    if o then read_octal_escape cs else read_simple_escape cs.

(** loop of reader.c:128-145: skips to the closing quote.  At the end of the input the loop of the C
    code never terminates: the model runs out of fuel. *)
Fixpoint char_rest_loop (fuel : nat) (cs : input) : res input :=
  match fuel with
  | O => Fuel
  | S f =>
      let rest := get_top cs in
      let cs' := advance cs in
      if rest =? 39 then Ok cs'
      else if rest =? 92 then do r <- read_escape cs'; char_rest_loop f (snd r)
      else if rest =? 10 then Err
      else char_rest_loop f cs'
  end.

(** reader.c:105-153 read_character_constant *)
Definition read_character_constant (fuel : nat) (cs : input) : res (token * input) :=
  let cs1 := advance cs in
  let c := get_top cs1 in
  let cs2 := advance cs1 in
  do r <- (if c =? 92 then read_escape cs2
           else if c =? 10 then Err
           else if c =? 39 then Err
           else Ok (c, cs2));
  do cs3 <- char_rest_loop fuel (snd r);
  Ok (TChar (new_signed IInt (fst r)), cs3).

(** loop of reader.c:165-192; each value is stored into a char *)
Fixpoint string_loop (fuel : nat) (cs : input) : res (list Z * input) :=
  match fuel with
  | O => Fuel
  | S f =>
      let c := get_top cs in
      let cs' := advance cs in
      if c =? 34 then Ok ([], cs')
      else
        do r <- (if c =? 92 then read_escape cs' else if c =? 10 then Err else Ok (c, cs'));
        do t <- string_loop f (snd r);
        Ok (wraps 8 (fst r) :: fst t, snd t)
  end.

(** reader.c:155-204 read_string_literal *)
Definition read_string_literal (fuel : nat) (cs : input) : res (token * input) :=
  do r <- string_loop fuel (advance cs);
  Ok (TStr (fst r ++ [0]), snd r).

(** reader.c:206-258 read_punctuator *)
Definition read_punctuator (cs : input) : res (token * input) :=
  if get_top cs =? EOF then Ok (TTok CtEOF, cs)
  else
    let str := take_chars 3 cs in
    do o <- longest_match punctuator_map (length str) str;
    match o with
    | Some (t, n) => Ok (TTok t, skipn n cs)
    | None => Err
    end.

(** lexer.c:32-46: one token *)
Definition read_token (fuel : nat) (cs : input) : res (token * input) :=
  let c := get_top cs in
  do nd <- is_in_set nondigit_set c;
  if nd then read_keyword_or_identifier cs
  else
    do d <- is_digit_in digit_map c;
    if d then read_integer_constant cs
    else if c =? 39 then read_character_constant fuel cs
    else if c =? 34 then read_string_literal fuel cs
    else read_punctuator cs.

(** lexer.c:31-60 *)
Fixpoint tokens_loop (fuel : nat) (cs : input) : res (list token) :=
  match fuel with
  | O => Fuel
  | S f =>
      do r <- read_token f cs;
      match fst r with
      | TTok CtEOF => Ok [fst r]
      | t => do cs' <- skip_white_spaces (snd r); do ts <- tokens_loop f cs'; Ok (t :: ts)
      end
  end.

(** new_lexer: content_size = strlen(content): the text stops at the first NUL *)
Fixpoint until_nul (cs : input) : input :=
  match cs with
  | [] => []
  | c :: t => if c =? 0 then [] else c :: until_nul t
  end.

(** lexer.c:24-63 lexer_read_ctokens *)
Definition lex (fuel : nat) (content : input) : res (list token) :=
  do cs <- skip_white_spaces (until_nul content);
  tokens_loop fuel cs.

(** source bytes (0..255) as C chars, which are signed on x86-64 *)
Definition to_chars (bs : list byte) : input := List.map (wraps 8) bs.

(** freader.c:11-30 freader_read: an empty file is an error *)
Definition read_file (bs : list byte) : res input :=
  match bs with [] => Err | _ => Ok (to_chars bs) end.

(** Fuel that suffices whenever the lexer terminates at all (proved in LexerProofs). *)
Definition lex_source (bs : list byte) : res (list token) :=
  do cs <- read_file bs; lex (2 * length cs + 4) cs.
