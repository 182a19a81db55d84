(** Specification of C tokens and their spellings, independent of src/lexer (only the token type is shared).
    Characters are C chars: integers in -128..127. *)
From Verif Require Import Base LiteralModel LexerModel.
Local Open Scope Z_scope.

Definition lower (c : Z) : bool := (97 <=? c) && (c <=? 122).
Definition upper (c : Z) : bool := (65 <=? c) && (c <=? 90).
Definition nondigit (c : Z) : bool := (c =? 95) || lower c || upper c.
Definition digit (c : Z) : bool := (48 <=? c) && (c <=? 57).
Definition octdigit (c : Z) : bool := (48 <=? c) && (c <=? 55).
Definition hexdigit (c : Z) : bool := digit c || ((97 <=? c) && (c <=? 102)) || ((65 <=? c) && (c <=? 70)).
Definition space (c : Z) : bool := (c =? 32) || (c =? 9) || (c =? 10) || (c =? 11) || (c =? 12).

(** value of a digit character *)
Definition dval (c : Z) : Z := if digit c then c - 48 else if lower c then c - 97 + 10 else c - 65 + 10.
(** positional value, most significant digit first *)
Fixpoint number (base : Z) (ds : list Z) : Z :=
  match ds with
  | [] => 0
  | d :: t => dval d * base ^ Z.of_nat (length t) + number base t
  end.

(** Characters inside quotes. *)
Inductive elem :=
| Plain (c : Z)                     (* the character itself *)
| Simple (c : Z)                    (* \c *)
| Oct (ds : list Z)                 (* \ooo *)
| Hex (ds : list Z).                (* \xhh... *)

(** simple escape sequences: letter, value *)
Definition simple_escapes : list (Z * Z) :=
  [(39, 39); (34, 34); (63, 63); (92, 92); (97, 7); (98, 8); (102, 12); (110, 10); (114, 13); (116, 9); (118, 11)].

Definition elem_text (e : elem) : list Z :=
  match e with
  | Plain c => [c]
  | Simple c => [92; c]
  | Oct ds => 92 :: ds
  | Hex ds => 92 :: 120 :: ds
  end.
(** the value denoted *)
Definition elem_value (e : elem) : Z :=
  match e with
  | Plain c => c
  | Simple c => match find (fun p => fst p =? c) simple_escapes with Some p => snd p | None => 0 end
  | Oct ds => number 8 ds
  | Hex ds => number 16 ds
  end.
Definition elems_text (es : list elem) : list Z := flat_map elem_text es.

(** first character of a text *)
Definition head_is (f : Z -> bool) (s : list Z) : bool := match s with [] => false | c :: _ => f c end.

(** [elem_ok q e rest]: [e] may stand before [rest] inside [q]-quotes *)
Definition elem_ok (q : Z) (e : elem) (rest : list Z) : bool :=
  match e with
  | Plain c => negb (c =? q) && negb (c =? 92) && negb (c =? 10)
  | Simple c => existsb (fun p => fst p =? c) simple_escapes
  | Oct ds => forallb octdigit ds && (1 <=? length ds)%nat && (length ds <=? 3)%nat
              && (negb (head_is octdigit rest) || (length ds =? 3)%nat)
  | Hex ds => forallb hexdigit ds && (1 <=? length ds)%nat && negb (head_is hexdigit rest)
              && (number 16 ds <=? INT_MAX)
  end.
(** all elements, followed by [rest] *)
Fixpoint elems_ok (q : Z) (es : list elem) (rest : list Z) : bool :=
  match es with
  | [] => true
  | e :: t => elem_ok q e (elems_text t ++ rest) && elems_ok q t rest
  end.

(** Spelled tokens. *)
Inductive spelling :=
| SWord (c : Z) (cs : list Z)                       (* identifier or keyword *)
| SHex (x : Z) (ds suf : list Z)                    (* 0x ds suf *)
| SOct (ds suf : list Z)                            (* 0 ds suf *)
| SDec (d : Z) (ds suf : list Z)                    (* d ds suf *)
| SChar (e : elem) (es : list elem)                 (* 'e es' *)
| SStr (es : list elem)
| SPunct (s : list Z).

Definition spell (s : spelling) : list Z :=
  match s with
  | SWord c cs => c :: cs
  | SHex x ds suf => 48 :: x :: ds ++ suf
  | SOct ds suf => 48 :: ds ++ suf
  | SDec d ds suf => d :: ds ++ suf
  | SChar e es => 39 :: elem_text e ++ elems_text es ++ [39]
  | SStr es => 34 :: elems_text es ++ [34]
  | SPunct s => s
  end.

Fixpoint assoc {V} (t : list (name * V)) (s : name) : option V :=
  match t with
  | [] => None
  | (k, v) :: t' => if name_eqb k s then Some v else assoc t' s
  end.

(** Spelling of keywords and punctuators (C11 6.4.1, 6.4.6). *)
Definition token_text (t : ctype) : string :=
  match t with
  | KwBreak => "break" | KwCase => "case" | KwChar => "char" | KwContinue => "continue" | KwDefault => "default"
  | KwElse => "else" | KwEnum => "enum" | KwFor => "for" | KwIf => "if" | KwInt => "int" | KwLong => "long"
  | KwReturn => "return" | KwSizeof => "sizeof" | KwStruct => "struct" | KwSwitch => "switch"
  | KwTypedef => "typedef" | KwUnsigned => "unsigned" | KwVoid => "void" | KwWhile => "while"
  | LBracket => "[" | RBracket => "]" | LParen => "(" | RParen => ")" | LBrace => "{" | RBrace => "}"
  | Dot => "." | Arrow => "->" | PlusPlus => "++" | MinusMinus => "--" | And => "&" | Asterisk => "*"
  | Plus => "+" | Minus => "-" | Tilde => "~" | Exclam => "!" | Slash => "/" | Percent => "%"
  | LessLess => "<<" | GreaterGreater => ">>" | Less => "<" | Greater => ">" | LessEqual => "<="
  | GreaterEqual => ">=" | EqualEqual => "==" | ExclamEqual => "!=" | Caret => "^" | VBar => "|"
  | AndAnd => "&&" | VBarVBar => "||" | Question => "?" | Colon => ":" | Semicolon => ";" | Equal => "="
  | AsteriskEqual => "*=" | SlashEqual => "/=" | PercentEqual => "%=" | PlusEqual => "+=" | MinusEqual => "-="
  | LessLessEqual => "<<=" | GreaterGreaterEqual => ">>=" | AndEqual => "&=" | CaretEqual => "^="
  | VBarEqual => "|=" | Comma => ","
  | CtIdent | CtInt | CtChar | CtString | CtEOF => ""
  end.
Definition keywords : list (name * ctype) :=
  List.map (fun t => (bytes (token_text t), t))
    [KwBreak; KwCase; KwChar; KwContinue; KwDefault; KwElse; KwEnum; KwFor; KwIf; KwInt; KwLong; KwReturn; KwSizeof;
     KwStruct; KwSwitch; KwTypedef; KwUnsigned; KwVoid; KwWhile].
Definition punctuators : list (name * ctype) :=
  List.map (fun t => (bytes (token_text t), t))
    [LBracket; RBracket; LParen; RParen; LBrace; RBrace; Dot; Arrow; PlusPlus; MinusMinus; And; Asterisk; Plus; Minus;
     Tilde; Exclam; Slash; Percent; LessLess; GreaterGreater; Less; Greater; LessEqual; GreaterEqual; EqualEqual;
     ExclamEqual; Caret; VBar; AndAnd; VBarVBar; Question; Colon; Semicolon; Equal; AsteriskEqual; SlashEqual;
     PercentEqual; PlusEqual; MinusEqual; LessLessEqual; GreaterGreaterEqual; AndEqual; CaretEqual; VBarEqual; Comma].
(** integer suffixes (C11 6.4.4.1): u or U, l or L, ll or LL, combined in either order *)
Definition suffixes : list (name * iltype) :=
  let u := [bytes "u"; bytes "U"] in
  let l := [bytes "l"; bytes "L"] in
  let ll := [bytes "ll"; bytes "LL"] in
  let both a b := List.map (fun p => fst p ++ snd p) (list_prod a b) ++ List.map (fun p => fst p ++ snd p) (list_prod b a) in
  List.map (fun s => (s, IUInt)) u ++ List.map (fun s => (s, ILong)) l ++ List.map (fun s => (s, ILongLong)) ll ++
  List.map (fun s => (s, IULong)) (both u l) ++ List.map (fun s => (s, IULongLong)) (both u ll).

(** type named by an integer suffix; no suffix is int *)
Definition suffix_type (suf : list Z) : option iltype :=
  match suf with [] => Some IInt | _ => assoc suffixes suf end.

(** an integer constant of type t; values beyond the widest type are clamped *)
Definition int_token (t : iltype) (v : Z) : token :=
  TInt (if iltype_isunsigned t then mkil t (-1) (Z.min v ULLONG_MAX) else mkil t (Z.min v LLONG_MAX) 0).

Definition meaning (s : spelling) : option token :=
  match s with
  | SWord c cs =>
      match assoc keywords (c :: cs) with Some t => Some (TTok t) | None => Some (TIdent (c :: cs)) end
  | SHex _ ds suf => match suffix_type suf with Some t => Some (int_token t (number 16 ds)) | None => None end
  | SOct ds suf => match suffix_type suf with Some t => Some (int_token t (number 8 ds)) | None => None end
  | SDec d ds suf => match suffix_type suf with Some t => Some (int_token t (number 10 (d :: ds))) | None => None end
  | SChar e _ => Some (TChar (mkil IInt (elem_value e) 0))
  | SStr es => Some (TStr (List.map (fun e => wraps 8 (elem_value e)) es ++ [0]))
  | SPunct s => match assoc punctuators s with Some t => Some (TTok t) | None => None end
  end.

(** [p] is the longest entry of table [t] that is a prefix of [text] (or [p = []] if there is none) *)
Definition longest_entry {V} (t : list (name * V)) (p text : list Z) : Prop :=
  (p <> [] -> assoc t p <> None) /\
  (exists rest, text = p ++ rest) /\
  (forall k v rest, In (k, v) t -> text = k ++ rest -> (length k <= length p)%nat).

(** [token_ok s rest]: the spelling is well formed and maximal when followed by [rest] *)
Definition token_ok (s : spelling) (rest : list Z) : Prop :=
  match s with
  | SWord c cs =>
      nondigit c = true /\ forallb (fun c => nondigit c || digit c) cs = true /\
      head_is (fun c => nondigit c || digit c) rest = false
  | SHex x ds suf =>
      (x = 120 \/ x = 88) /\ ds <> [] /\ forallb hexdigit ds = true /\
      head_is hexdigit (suf ++ rest) = false /\ longest_entry suffixes suf (suf ++ rest)
  | SOct ds suf =>
      forallb octdigit ds = true /\ head_is octdigit (suf ++ rest) = false /\
      (ds = [] -> head_is (fun c => (c =? 120) || (c =? 88)) (suf ++ rest) = false) /\
      longest_entry suffixes suf (suf ++ rest)
  | SDec d ds suf =>
      digit d = true /\ d <> 48 /\ forallb digit ds = true /\
      head_is digit (suf ++ rest) = false /\ longest_entry suffixes suf (suf ++ rest)
  | SChar e es => elem_ok 39 e (elems_text es ++ 39 :: rest) = true /\ elems_ok 39 es (39 :: rest) = true
  | SStr es => elems_ok 34 es (34 :: rest) = true
  | SPunct s => s <> [] /\ longest_entry punctuators s (s ++ rest)
  end.

(** A source text: tokens each followed by white space, then [rest]. *)
Fixpoint text_of (l : list (spelling * list Z)) (rest : list Z) : list Z :=
  match l with
  | [] => rest
  | (s, ws) :: t => spell s ++ ws ++ text_of t rest
  end.
Fixpoint text_ok (l : list (spelling * list Z)) (rest : list Z) : Prop :=
  match l with
  | [] => True
  | (s, ws) :: t => token_ok s (ws ++ text_of t rest) /\ forallb space ws = true /\ text_ok t rest
  end.

(** A token whose spelling is well formed in itself. *)
Definition well_spelled (s : spelling) : Prop :=
  match s with
  | SWord c cs => nondigit c = true /\ forallb (fun c => nondigit c || digit c) cs = true
  | SHex x ds suf => (x = 120 \/ x = 88) /\ ds <> [] /\ forallb hexdigit ds = true /\ suffix_type suf <> None
  | SOct ds suf => forallb octdigit ds = true /\ suffix_type suf <> None
  | SDec d ds suf => digit d = true /\ d <> 48 /\ forallb digit ds = true /\ suffix_type suf <> None
  | SChar e es => elem_ok 39 e (elems_text es ++ [39]) = true /\ elems_ok 39 es [39] = true
  | SStr es => elems_ok 34 es [34] = true
  | SPunct s => assoc punctuators s <> None
  end.

Definition is_char (c : Z) : Prop := -128 <= c <= 127.
(** non-NUL characters without the high bit *)
Definition ascii (c : Z) : Prop := 0 < c <= 127.

(** How the GNU assembler reads the text of .ascii after the opening quote (manual, section Strings):
    the letters b f n r t, one to three octal digits, backslash and quote; before any other character the backslash is
    ignored.  (\x is not produced by the compiler and is left out.) *)
Definition gas_escape (c : Z) : Z :=
  match c with 98 => 8 | 102 => 12 | 110 => 10 | 114 => 13 | 116 => 9 | _ => c end.
Fixpoint gas_ascii (s : list Z) : option (list Z) :=
  let cons v r := match r with Some l => Some (wraps 8 v :: l) | None => None end in
  match s with
  | [] => None
  | 34 :: t => match t with [] => Some [] | _ => None end
  | 92 :: t =>
      match t with
      | [] => None
      | d1 :: t1 =>
          if octdigit d1 then
            match t1 with
            | [] => None
            | d2 :: t2 =>
                if octdigit d2 then
                  match t2 with
                  | [] => None
                  | d3 :: t3 => if octdigit d3 then cons (number 8 [d1; d2; d3]) (gas_ascii t3)
                                else cons (number 8 [d1; d2]) (gas_ascii t2)
                  end
                else cons (number 8 [d1]) (gas_ascii t1)
            end
          else cons (gas_escape d1) (gas_ascii t1)
      end
  | c :: t => cons c (gas_ascii t)
  end.
