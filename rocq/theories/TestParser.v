(** The parser unit tests of /repo/tests/parser, read by tools/gen_tests.py and run on the model.
    These are tests of the model, not properties. *)
From Verif Require Import Base LiteralModel LexerModel AstModel ParserModel.
Open Scope Z_scope.

(** nonterminal, typedef names, tokens and the expected tree ([None]: an error is expected) *)
Definition case : Type := nt * list name * list token * option ast.
Definition run (c : case) : option ast :=
  let '(n, s, ts, _) := c in
  match parse (parse_fuel ts) n (mkpst ts s false) with Ok (Some a, _) => Some a | _ => None end.
Definition errs (c : case) : bool :=
  let '(n, s, ts, _) := c in
  match parse (parse_fuel ts) n (mkpst ts s false) with Ok (None, _) => true | _ => false end.

(** tests/parser/test_declaration.c test_parse_char_decl *)
Definition test_parse_char_decl : case :=
  (NDecl, [],
   [TTok KwChar; TIdent [99]; TTok Semicolon; TTok CtEOF],
   Some (new_ast AST_DECL [(new_ast AST_DECL_SPECS [(new_ast AST_TYPE_CHAR [])]); (new_ast AST_INIT_DECLOR_LIST [(new_ast AST_INIT_DECLOR [(new_identifier_ast AST_IDENT_DECLOR [99])])])])).
Example test_parse_char_decl_ok : run test_parse_char_decl = snd test_parse_char_decl. Proof. vm_compute. reflexivity. Qed.
(** tests/parser/test_declaration.c test_parse_int_decl *)
Definition test_parse_int_decl : case :=
  (NDecl, [],
   [TTok KwInt; TIdent [105]; TTok Semicolon; TTok CtEOF],
   Some (new_ast AST_DECL [(new_ast AST_DECL_SPECS [(new_ast AST_TYPE_INT [])]); (new_ast AST_INIT_DECLOR_LIST [(new_ast AST_INIT_DECLOR [(new_identifier_ast AST_IDENT_DECLOR [105])])])])).
Example test_parse_int_decl_ok : run test_parse_int_decl = snd test_parse_int_decl. Proof. vm_compute. reflexivity. Qed.
(** tests/parser/test_declaration.c test_parse_unsigned_int_decl *)
Definition test_parse_unsigned_int_decl : case :=
  (NDecl, [],
   [TTok KwUnsigned; TTok KwInt; TIdent [117]; TTok Semicolon; TTok CtEOF],
   Some (new_ast AST_DECL [(new_ast AST_DECL_SPECS [(new_ast AST_TYPE_UNSIGNED []); (new_ast AST_TYPE_INT [])]); (new_ast AST_INIT_DECLOR_LIST [(new_ast AST_INIT_DECLOR [(new_identifier_ast AST_IDENT_DECLOR [117])])])])).
Example test_parse_unsigned_int_decl_ok : run test_parse_unsigned_int_decl = snd test_parse_unsigned_int_decl. Proof. vm_compute. reflexivity. Qed.
(** tests/parser/test_declaration.c test_parse_long_decl *)
Definition test_parse_long_decl : case :=
  (NDecl, [],
   [TTok KwLong; TIdent [108]; TTok Semicolon; TTok CtEOF],
   Some (new_ast AST_DECL [(new_ast AST_DECL_SPECS [(new_ast AST_TYPE_LONG [])]); (new_ast AST_INIT_DECLOR_LIST [(new_ast AST_INIT_DECLOR [(new_identifier_ast AST_IDENT_DECLOR [108])])])])).
Example test_parse_long_decl_ok : run test_parse_long_decl = snd test_parse_long_decl. Proof. vm_compute. reflexivity. Qed.
(** tests/parser/test_declaration.c test_parse_unsigned_long_decl *)
Definition test_parse_unsigned_long_decl : case :=
  (NDecl, [],
   [TTok KwUnsigned; TTok KwLong; TIdent [117; 108]; TTok Semicolon; TTok CtEOF],
   Some (new_ast AST_DECL [(new_ast AST_DECL_SPECS [(new_ast AST_TYPE_UNSIGNED []); (new_ast AST_TYPE_LONG [])]); (new_ast AST_INIT_DECLOR_LIST [(new_ast AST_INIT_DECLOR [(new_identifier_ast AST_IDENT_DECLOR [117; 108])])])])).
Example test_parse_unsigned_long_decl_ok : run test_parse_unsigned_long_decl = snd test_parse_unsigned_long_decl. Proof. vm_compute. reflexivity. Qed.
(** tests/parser/test_declaration.c test_parse_long_long_decl *)
Definition test_parse_long_long_decl : case :=
  (NDecl, [],
   [TTok KwLong; TTok KwLong; TIdent [108; 108]; TTok Semicolon; TTok CtEOF],
   Some (new_ast AST_DECL [(new_ast AST_DECL_SPECS [(new_ast AST_TYPE_LONG []); (new_ast AST_TYPE_LONG [])]); (new_ast AST_INIT_DECLOR_LIST [(new_ast AST_INIT_DECLOR [(new_identifier_ast AST_IDENT_DECLOR [108; 108])])])])).
Example test_parse_long_long_decl_ok : run test_parse_long_long_decl = snd test_parse_long_long_decl. Proof. vm_compute. reflexivity. Qed.
(** tests/parser/test_declaration.c test_parse_unsigned_long_long_decl *)
Definition test_parse_unsigned_long_long_decl : case :=
  (NDecl, [],
   [TTok KwUnsigned; TTok KwLong; TTok KwLong; TIdent [117; 108; 108]; TTok Semicolon; TTok CtEOF],
   Some (new_ast AST_DECL [(new_ast AST_DECL_SPECS [(new_ast AST_TYPE_UNSIGNED []); (new_ast AST_TYPE_LONG []); (new_ast AST_TYPE_LONG [])]); (new_ast AST_INIT_DECLOR_LIST [(new_ast AST_INIT_DECLOR [(new_identifier_ast AST_IDENT_DECLOR [117; 108; 108])])])])).
Example test_parse_unsigned_long_long_decl_ok : run test_parse_unsigned_long_long_decl = snd test_parse_unsigned_long_long_decl. Proof. vm_compute. reflexivity. Qed.
(** tests/parser/test_declaration.c test_parse_pointer_decl *)
Definition test_parse_pointer_decl : case :=
  (NDecl, [],
   [TTok KwInt; TTok Asterisk; TIdent [112]; TTok Comma; TTok Asterisk; TTok Asterisk; TIdent [113]; TTok Semicolon; TTok CtEOF],
   Some (new_ast AST_DECL [(new_ast AST_DECL_SPECS [(new_ast AST_TYPE_INT [])]); (new_ast AST_INIT_DECLOR_LIST [(new_ast AST_INIT_DECLOR [(new_ast AST_PTR_DECLOR [(new_identifier_ast AST_IDENT_DECLOR [112])])]); (new_ast AST_INIT_DECLOR [(new_ast AST_PTR_DECLOR [(new_ast AST_PTR_DECLOR [(new_identifier_ast AST_IDENT_DECLOR [113])])])])])])).
Example test_parse_pointer_decl_ok : run test_parse_pointer_decl = snd test_parse_pointer_decl. Proof. vm_compute. reflexivity. Qed.
(** tests/parser/test_declaration.c test_parse_array_decl *)
Definition test_parse_array_decl : case :=
  (NDecl, [],
   [TTok KwInt; TIdent [97]; TTok LBracket; TInt (new_signed IInt 5); TTok RBracket; TTok Comma; TTok Asterisk; TIdent [98]; TTok LBracket; TInt (new_signed IInt 8); TTok RBracket; TTok Comma; TIdent [99]; TTok LBracket; TInt (new_signed IInt 6); TTok RBracket; TTok LBracket; TInt (new_signed IInt 3); TTok RBracket; TTok Comma; TTok Asterisk; TIdent [100]; TTok LBracket; TInt (new_signed IInt 2); TTok RBracket; TTok LBracket; TInt (new_signed IInt 4); TTok RBracket; TTok Semicolon; TTok CtEOF],
   Some (new_ast AST_DECL [(new_ast AST_DECL_SPECS [(new_ast AST_TYPE_INT [])]); (new_ast AST_INIT_DECLOR_LIST [(new_ast AST_INIT_DECLOR [(new_ast AST_ARRAY_DECLOR [(new_identifier_ast AST_IDENT_DECLOR [97]); (new_iliteral_ast AST_INT_EXPR (new_signed IInt 5))])]); (new_ast AST_INIT_DECLOR [(new_ast AST_ARRAY_DECLOR [(new_ast AST_PTR_DECLOR [(new_identifier_ast AST_IDENT_DECLOR [98])]); (new_iliteral_ast AST_INT_EXPR (new_signed IInt 8))])]); (new_ast AST_INIT_DECLOR [(new_ast AST_ARRAY_DECLOR [(new_ast AST_ARRAY_DECLOR [(new_identifier_ast AST_IDENT_DECLOR [99]); (new_iliteral_ast AST_INT_EXPR (new_signed IInt 3))]); (new_iliteral_ast AST_INT_EXPR (new_signed IInt 6))])]); (new_ast AST_INIT_DECLOR [(new_ast AST_ARRAY_DECLOR [(new_ast AST_ARRAY_DECLOR [(new_ast AST_PTR_DECLOR [(new_identifier_ast AST_IDENT_DECLOR [100])]); (new_iliteral_ast AST_INT_EXPR (new_signed IInt 4))]); (new_iliteral_ast AST_INT_EXPR (new_signed IInt 2))])])])])).
Example test_parse_array_decl_ok : run test_parse_array_decl = snd test_parse_array_decl. Proof. vm_compute. reflexivity. Qed.
(** tests/parser/test_declaration.c test_parse_function_decl *)
Definition test_parse_function_decl : case :=
  (NDecl, [],
   [TTok KwChar; TTok Asterisk; TIdent [102]; TTok LParen; TTok KwVoid; TTok RParen; TTok Comma; TIdent [103]; TTok LParen; TTok KwInt; TIdent [97]; TTok RParen; TTok Comma; TIdent [104]; TTok LParen; TTok KwInt; TIdent [98]; TTok Comma; TTok KwInt; TIdent [99]; TTok RParen; TTok Semicolon; TTok CtEOF],
   Some (new_ast AST_DECL [(new_ast AST_DECL_SPECS [(new_ast AST_TYPE_CHAR [])]); (new_ast AST_INIT_DECLOR_LIST [(new_ast AST_INIT_DECLOR [(new_ast AST_FUNC_DECLOR [(new_ast AST_PTR_DECLOR [(new_identifier_ast AST_IDENT_DECLOR [102])]); (new_ast AST_PARAM_LIST [(new_ast AST_PARAM_DECL [(new_ast AST_DECL_SPECS [(new_ast AST_TYPE_VOID [])]); (new_ast AST_ABS_DECLOR [])])])])]); (new_ast AST_INIT_DECLOR [(new_ast AST_FUNC_DECLOR [(new_identifier_ast AST_IDENT_DECLOR [103]); (new_ast AST_PARAM_LIST [(new_ast AST_PARAM_DECL [(new_ast AST_DECL_SPECS [(new_ast AST_TYPE_INT [])]); (new_identifier_ast AST_IDENT_DECLOR [97])])])])]); (new_ast AST_INIT_DECLOR [(new_ast AST_FUNC_DECLOR [(new_identifier_ast AST_IDENT_DECLOR [104]); (new_ast AST_PARAM_LIST [(new_ast AST_PARAM_DECL [(new_ast AST_DECL_SPECS [(new_ast AST_TYPE_INT [])]); (new_identifier_ast AST_IDENT_DECLOR [98])]); (new_ast AST_PARAM_DECL [(new_ast AST_DECL_SPECS [(new_ast AST_TYPE_INT [])]); (new_identifier_ast AST_IDENT_DECLOR [99])])])])])])])).
Example test_parse_function_decl_ok : run test_parse_function_decl = snd test_parse_function_decl. Proof. vm_compute. reflexivity. Qed.
(** tests/parser/test_declaration.c test_parse_non_scalar_parameter_decl *)
Definition test_parse_non_scalar_parameter_decl : case :=
  (NDecl, [],
   [TTok KwInt; TIdent [102; 117; 110; 99]; TTok LParen; TTok KwInt; TIdent [97]; TTok LBracket; TInt (new_signed IInt 5); TTok RBracket; TTok Comma; TTok KwChar; TTok Asterisk; TIdent [102]; TTok LParen; TTok KwInt; TIdent [112]; TTok RParen; TTok RParen; TTok Semicolon; TTok CtEOF],
   Some (new_ast AST_DECL [(new_ast AST_DECL_SPECS [(new_ast AST_TYPE_INT [])]); (new_ast AST_INIT_DECLOR_LIST [(new_ast AST_INIT_DECLOR [(new_ast AST_FUNC_DECLOR [(new_identifier_ast AST_IDENT_DECLOR [102; 117; 110; 99]); (new_ast AST_PARAM_LIST [(new_ast AST_PARAM_DECL [(new_ast AST_DECL_SPECS [(new_ast AST_TYPE_INT [])]); (new_ast AST_ARRAY_DECLOR [(new_identifier_ast AST_IDENT_DECLOR [97]); (new_iliteral_ast AST_INT_EXPR (new_signed IInt 5))])]); (new_ast AST_PARAM_DECL [(new_ast AST_DECL_SPECS [(new_ast AST_TYPE_CHAR [])]); (new_ast AST_FUNC_DECLOR [(new_ast AST_PTR_DECLOR [(new_identifier_ast AST_IDENT_DECLOR [102])]); (new_ast AST_PARAM_LIST [(new_ast AST_PARAM_DECL [(new_ast AST_DECL_SPECS [(new_ast AST_TYPE_INT [])]); (new_identifier_ast AST_IDENT_DECLOR [112])])])])])])])])])])).
Example test_parse_non_scalar_parameter_decl_ok : run test_parse_non_scalar_parameter_decl = snd test_parse_non_scalar_parameter_decl. Proof. vm_compute. reflexivity. Qed.
(** tests/parser/test_declaration.c test_parse_unnamed_parameter_decl *)
Definition test_parse_unnamed_parameter_decl : case :=
  (NDecl, [],
   [TTok KwVoid; TIdent [102]; TTok LParen; TTok KwVoid; TTok RParen; TTok Comma; TIdent [103]; TTok LParen; TTok KwChar; TTok Comma; TTok KwInt; TTok LParen; TTok KwInt; TTok RParen; TTok RParen; TTok Comma; TIdent [104]; TTok LParen; TTok KwInt; TIdent [120]; TTok Comma; TTok KwInt; TTok RParen; TTok Semicolon; TTok CtEOF],
   Some (new_ast AST_DECL [(new_ast AST_DECL_SPECS [(new_ast AST_TYPE_VOID [])]); (new_ast AST_INIT_DECLOR_LIST [(new_ast AST_INIT_DECLOR [(new_ast AST_FUNC_DECLOR [(new_identifier_ast AST_IDENT_DECLOR [102]); (new_ast AST_PARAM_LIST [(new_ast AST_PARAM_DECL [(new_ast AST_DECL_SPECS [(new_ast AST_TYPE_VOID [])]); (new_ast AST_ABS_DECLOR [])])])])]); (new_ast AST_INIT_DECLOR [(new_ast AST_FUNC_DECLOR [(new_identifier_ast AST_IDENT_DECLOR [103]); (new_ast AST_PARAM_LIST [(new_ast AST_PARAM_DECL [(new_ast AST_DECL_SPECS [(new_ast AST_TYPE_CHAR [])]); (new_ast AST_ABS_DECLOR [])]); (new_ast AST_PARAM_DECL [(new_ast AST_DECL_SPECS [(new_ast AST_TYPE_INT [])]); (new_ast AST_FUNC_DECLOR [(new_ast AST_ABS_DECLOR []); (new_ast AST_PARAM_LIST [(new_ast AST_PARAM_DECL [(new_ast AST_DECL_SPECS [(new_ast AST_TYPE_INT [])]); (new_ast AST_ABS_DECLOR [])])])])])])])]); (new_ast AST_INIT_DECLOR [(new_ast AST_FUNC_DECLOR [(new_identifier_ast AST_IDENT_DECLOR [104]); (new_ast AST_PARAM_LIST [(new_ast AST_PARAM_DECL [(new_ast AST_DECL_SPECS [(new_ast AST_TYPE_INT [])]); (new_identifier_ast AST_IDENT_DECLOR [120])]); (new_ast AST_PARAM_DECL [(new_ast AST_DECL_SPECS [(new_ast AST_TYPE_INT [])]); (new_ast AST_ABS_DECLOR [])])])])])])])).
Example test_parse_unnamed_parameter_decl_ok : run test_parse_unnamed_parameter_decl = snd test_parse_unnamed_parameter_decl. Proof. vm_compute. reflexivity. Qed.
(** tests/parser/test_declaration.c test_parse_named_struct_decl *)
Definition test_parse_named_struct_decl : case :=
  (NDecl, [],
   [TTok KwStruct; TIdent [83; 116; 114; 117; 99; 116]; TTok LBrace; TTok KwInt; TIdent [120]; TTok Comma; TIdent [121]; TTok Semicolon; TTok KwChar; TIdent [115]; TTok LBracket; TInt (new_signed IInt 10); TTok RBracket; TTok Semicolon; TTok KwStruct; TIdent [83; 116; 114; 117; 99; 116]; TTok Asterisk; TIdent [110; 101; 120; 116]; TTok Semicolon; TTok RBrace; TTok Asterisk; TIdent [115; 116; 114; 117; 99; 116; 117; 114; 101]; TTok Semicolon; TTok CtEOF],
   Some (new_ast AST_DECL [(new_ast AST_DECL_SPECS [(new_ast AST_TYPE_STRUCT [(new_identifier_ast AST_STRUCT_NAME [83; 116; 114; 117; 99; 116]); (new_ast AST_STRUCT_DECL_LIST [(new_ast AST_STRUCT_DECL [(new_ast AST_SPEC_QUAL_LIST [(new_ast AST_TYPE_INT [])]); (new_ast AST_STRUCT_DECLOR_LIST [(new_identifier_ast AST_IDENT_DECLOR [120]); (new_identifier_ast AST_IDENT_DECLOR [121])])]); (new_ast AST_STRUCT_DECL [(new_ast AST_SPEC_QUAL_LIST [(new_ast AST_TYPE_CHAR [])]); (new_ast AST_STRUCT_DECLOR_LIST [(new_ast AST_ARRAY_DECLOR [(new_identifier_ast AST_IDENT_DECLOR [115]); (new_iliteral_ast AST_INT_EXPR (new_signed IInt 10))])])]); (new_ast AST_STRUCT_DECL [(new_ast AST_SPEC_QUAL_LIST [(new_ast AST_TYPE_STRUCT [(new_identifier_ast AST_STRUCT_NAME [83; 116; 114; 117; 99; 116])])]); (new_ast AST_STRUCT_DECLOR_LIST [(new_ast AST_PTR_DECLOR [(new_identifier_ast AST_IDENT_DECLOR [110; 101; 120; 116])])])])])])]); (new_ast AST_INIT_DECLOR_LIST [(new_ast AST_INIT_DECLOR [(new_ast AST_PTR_DECLOR [(new_identifier_ast AST_IDENT_DECLOR [115; 116; 114; 117; 99; 116; 117; 114; 101])])])])])).
Example test_parse_named_struct_decl_ok : run test_parse_named_struct_decl = snd test_parse_named_struct_decl. Proof. vm_compute. reflexivity. Qed.
(** tests/parser/test_declaration.c test_parse_unnamed_struct_decl *)
Definition test_parse_unnamed_struct_decl : case :=
  (NDecl, [],
   [TTok KwStruct; TTok LBrace; TTok KwInt; TIdent [109; 101; 109; 98; 101; 114]; TTok Semicolon; TTok RBrace; TTok Asterisk; TIdent [115; 116; 114; 117; 99; 116; 117; 114; 101]; TTok Semicolon; TTok CtEOF],
   Some (new_ast AST_DECL [(new_ast AST_DECL_SPECS [(new_ast AST_TYPE_STRUCT [(new_ast AST_STRUCT_DECL_LIST [(new_ast AST_STRUCT_DECL [(new_ast AST_SPEC_QUAL_LIST [(new_ast AST_TYPE_INT [])]); (new_ast AST_STRUCT_DECLOR_LIST [(new_identifier_ast AST_IDENT_DECLOR [109; 101; 109; 98; 101; 114])])])])])]); (new_ast AST_INIT_DECLOR_LIST [(new_ast AST_INIT_DECLOR [(new_ast AST_PTR_DECLOR [(new_identifier_ast AST_IDENT_DECLOR [115; 116; 114; 117; 99; 116; 117; 114; 101])])])])])).
Example test_parse_unnamed_struct_decl_ok : run test_parse_unnamed_struct_decl = snd test_parse_unnamed_struct_decl. Proof. vm_compute. reflexivity. Qed.
(** tests/parser/test_declaration.c test_parse_nameonly_struct_decl *)
Definition test_parse_nameonly_struct_decl : case :=
  (NDecl, [],
   [TTok KwStruct; TIdent [83; 116; 114; 117; 99; 116]; TIdent [115; 116; 114; 117; 99; 116; 117; 114; 101]; TTok Semicolon; TTok CtEOF],
   Some (new_ast AST_DECL [(new_ast AST_DECL_SPECS [(new_ast AST_TYPE_STRUCT [(new_identifier_ast AST_STRUCT_NAME [83; 116; 114; 117; 99; 116])])]); (new_ast AST_INIT_DECLOR_LIST [(new_ast AST_INIT_DECLOR [(new_identifier_ast AST_IDENT_DECLOR [115; 116; 114; 117; 99; 116; 117; 114; 101])])])])).
Example test_parse_nameonly_struct_decl_ok : run test_parse_nameonly_struct_decl = snd test_parse_nameonly_struct_decl. Proof. vm_compute. reflexivity. Qed.
(** tests/parser/test_declaration.c test_parse_struct_name_decl *)
Definition test_parse_struct_name_decl : case :=
  (NDecl, [],
   [TTok KwStruct; TIdent [83; 116; 114; 117; 99; 116]; TTok LBrace; TTok KwInt; TIdent [120]; TTok Semicolon; TTok RBrace; TTok Semicolon; TTok CtEOF],
   Some (new_ast AST_DECL [(new_ast AST_DECL_SPECS [(new_ast AST_TYPE_STRUCT [(new_identifier_ast AST_STRUCT_NAME [83; 116; 114; 117; 99; 116]); (new_ast AST_STRUCT_DECL_LIST [(new_ast AST_STRUCT_DECL [(new_ast AST_SPEC_QUAL_LIST [(new_ast AST_TYPE_INT [])]); (new_ast AST_STRUCT_DECLOR_LIST [(new_identifier_ast AST_IDENT_DECLOR [120])])])])])])])).
Example test_parse_struct_name_decl_ok : run test_parse_struct_name_decl = snd test_parse_struct_name_decl. Proof. vm_compute. reflexivity. Qed.
(** tests/parser/test_declaration.c test_parse_named_enum_decl *)
Definition test_parse_named_enum_decl : case :=
  (NDecl, [],
   [TTok KwEnum; TTok LBrace; TIdent [80; 76; 85; 83]; TTok Comma; TIdent [77; 73; 78; 85; 83]; TTok RBrace; TIdent [101; 110; 117; 109; 101; 114; 97; 116; 105; 111; 110]; TTok Semicolon; TTok CtEOF],
   Some (new_ast AST_DECL [(new_ast AST_DECL_SPECS [(new_ast AST_TYPE_ENUM [(new_ast AST_ENUMOR_LIST [(new_ast AST_ENUMOR [(new_identifier_ast AST_ENUM_CONST [80; 76; 85; 83])]); (new_ast AST_ENUMOR [(new_identifier_ast AST_ENUM_CONST [77; 73; 78; 85; 83])])])])]); (new_ast AST_INIT_DECLOR_LIST [(new_ast AST_INIT_DECLOR [(new_identifier_ast AST_IDENT_DECLOR [101; 110; 117; 109; 101; 114; 97; 116; 105; 111; 110])])])])).
Example test_parse_named_enum_decl_ok : run test_parse_named_enum_decl = snd test_parse_named_enum_decl. Proof. vm_compute. reflexivity. Qed.
(** tests/parser/test_declaration.c test_parse_named_enum_decl_comma *)
Definition test_parse_named_enum_decl_comma : case :=
  (NDecl, [],
   [TTok KwEnum; TTok LBrace; TIdent [80; 76; 85; 83]; TTok Comma; TIdent [77; 73; 78; 85; 83]; TTok Comma; TTok RBrace; TIdent [101; 110; 117; 109; 101; 114; 97; 116; 105; 111; 110]; TTok Semicolon; TTok CtEOF],
   Some (new_ast AST_DECL [(new_ast AST_DECL_SPECS [(new_ast AST_TYPE_ENUM [(new_ast AST_ENUMOR_LIST [(new_ast AST_ENUMOR [(new_identifier_ast AST_ENUM_CONST [80; 76; 85; 83])]); (new_ast AST_ENUMOR [(new_identifier_ast AST_ENUM_CONST [77; 73; 78; 85; 83])])])])]); (new_ast AST_INIT_DECLOR_LIST [(new_ast AST_INIT_DECLOR [(new_identifier_ast AST_IDENT_DECLOR [101; 110; 117; 109; 101; 114; 97; 116; 105; 111; 110])])])])).
Example test_parse_named_enum_decl_comma_ok : run test_parse_named_enum_decl_comma = snd test_parse_named_enum_decl_comma. Proof. vm_compute. reflexivity. Qed.
(** tests/parser/test_declaration.c test_parse_unnamed_enum_decl *)
Definition test_parse_unnamed_enum_decl : case :=
  (NDecl, [],
   [TTok KwEnum; TTok LBrace; TIdent [70; 73; 82; 83; 84]; TTok Comma; TIdent [83; 69; 67; 79; 78; 68]; TTok Comma; TIdent [84; 72; 73; 82; 68]; TTok Equal; TInt (new_signed IInt 2); TTok RBrace; TIdent [101; 110; 117; 109; 101; 114; 97; 116; 105; 111; 110]; TTok Semicolon; TTok CtEOF],
   Some (new_ast AST_DECL [(new_ast AST_DECL_SPECS [(new_ast AST_TYPE_ENUM [(new_ast AST_ENUMOR_LIST [(new_ast AST_ENUMOR [(new_identifier_ast AST_ENUM_CONST [70; 73; 82; 83; 84])]); (new_ast AST_ENUMOR [(new_identifier_ast AST_ENUM_CONST [83; 69; 67; 79; 78; 68])]); (new_ast AST_ENUMOR [(new_identifier_ast AST_ENUM_CONST [84; 72; 73; 82; 68]); (new_iliteral_ast AST_INT_EXPR (new_signed IInt 2))])])])]); (new_ast AST_INIT_DECLOR_LIST [(new_ast AST_INIT_DECLOR [(new_identifier_ast AST_IDENT_DECLOR [101; 110; 117; 109; 101; 114; 97; 116; 105; 111; 110])])])])).
Example test_parse_unnamed_enum_decl_ok : run test_parse_unnamed_enum_decl = snd test_parse_unnamed_enum_decl. Proof. vm_compute. reflexivity. Qed.
(** tests/parser/test_declaration.c test_parse_nameonly_enum_decl *)
Definition test_parse_nameonly_enum_decl : case :=
  (NDecl, [],
   [TTok KwEnum; TIdent [69; 110; 117; 109]; TIdent [101; 110; 117; 109; 101; 114; 97; 116; 105; 111; 110]; TTok Semicolon; TTok CtEOF],
   Some (new_ast AST_DECL [(new_ast AST_DECL_SPECS [(new_ast AST_TYPE_ENUM [(new_identifier_ast AST_ENUM_NAME [69; 110; 117; 109])])]); (new_ast AST_INIT_DECLOR_LIST [(new_ast AST_INIT_DECLOR [(new_identifier_ast AST_IDENT_DECLOR [101; 110; 117; 109; 101; 114; 97; 116; 105; 111; 110])])])])).
Example test_parse_nameonly_enum_decl_ok : run test_parse_nameonly_enum_decl = snd test_parse_nameonly_enum_decl. Proof. vm_compute. reflexivity. Qed.
(** tests/parser/test_declaration.c test_parse_enum_name_decl *)
Definition test_parse_enum_name_decl : case :=
  (NDecl, [],
   [TTok KwEnum; TIdent [69; 110; 117; 109]; TTok LBrace; TIdent [70; 73; 82; 83; 84]; TTok Comma; TIdent [83; 69; 67; 79; 78; 68]; TTok Equal; TInt (new_signed IInt 5); TTok Comma; TIdent [84; 72; 73; 82; 68]; TTok RBrace; TTok Semicolon; TTok CtEOF],
   Some (new_ast AST_DECL [(new_ast AST_DECL_SPECS [(new_ast AST_TYPE_ENUM [(new_identifier_ast AST_ENUM_NAME [69; 110; 117; 109]); (new_ast AST_ENUMOR_LIST [(new_ast AST_ENUMOR [(new_identifier_ast AST_ENUM_CONST [70; 73; 82; 83; 84])]); (new_ast AST_ENUMOR [(new_identifier_ast AST_ENUM_CONST [83; 69; 67; 79; 78; 68]); (new_iliteral_ast AST_INT_EXPR (new_signed IInt 5))]); (new_ast AST_ENUMOR [(new_identifier_ast AST_ENUM_CONST [84; 72; 73; 82; 68])])])])])])).
Example test_parse_enum_name_decl_ok : run test_parse_enum_name_decl = snd test_parse_enum_name_decl. Proof. vm_compute. reflexivity. Qed.
(** tests/parser/test_declaration.c test_parse_typedef_decl *)
Definition test_parse_typedef_decl : case :=
  (NDecl, [],
   [TTok KwTypedef; TTok KwChar; TTok Asterisk; TIdent [116; 101; 115; 116; 95; 116; 121; 112; 101]; TTok Semicolon; TTok CtEOF],
   Some (new_ast AST_DECL [(new_ast AST_DECL_SPECS [(new_ast AST_STG_TYPEDEF []); (new_ast AST_TYPE_CHAR [])]); (new_ast AST_INIT_DECLOR_LIST [(new_ast AST_INIT_DECLOR [(new_ast AST_PTR_DECLOR [(new_identifier_ast AST_IDENT_DECLOR [116; 101; 115; 116; 95; 116; 121; 112; 101])])])])])).
Example test_parse_typedef_decl_ok : run test_parse_typedef_decl = snd test_parse_typedef_decl. Proof. vm_compute. reflexivity. Qed.
(** tests/parser/test_declaration.c test_parse_typedef_name_decl *)
Definition test_parse_typedef_name_decl : case :=
  (NDecl, [[116; 101; 115; 116; 95; 116; 121; 112; 101]],
   [TIdent [116; 101; 115; 116; 95; 116; 121; 112; 101]; TIdent [120]; TTok Semicolon; TTok CtEOF],
   Some (new_ast AST_DECL [(new_ast AST_DECL_SPECS [(new_identifier_ast AST_TYPEDEF_NAME [116; 101; 115; 116; 95; 116; 121; 112; 101])]); (new_ast AST_INIT_DECLOR_LIST [(new_ast AST_INIT_DECLOR [(new_identifier_ast AST_IDENT_DECLOR [120])])])])).
Example test_parse_typedef_name_decl_ok : run test_parse_typedef_name_decl = snd test_parse_typedef_name_decl. Proof. vm_compute. reflexivity. Qed.
(** tests/parser/test_declaration.c test_parse_enclosed_decl_int *)
Definition test_parse_enclosed_decl_int : case :=
  (NDecl, [],
   [TTok KwInt; TTok LParen; TIdent [105]; TTok RParen; TTok Semicolon; TTok CtEOF],
   Some (new_ast AST_DECL [(new_ast AST_DECL_SPECS [(new_ast AST_TYPE_INT [])]); (new_ast AST_INIT_DECLOR_LIST [(new_ast AST_INIT_DECLOR [(new_identifier_ast AST_IDENT_DECLOR [105])])])])).
Example test_parse_enclosed_decl_int_ok : run test_parse_enclosed_decl_int = snd test_parse_enclosed_decl_int. Proof. vm_compute. reflexivity. Qed.
(** tests/parser/test_declaration.c test_parse_enclosed_decl_pointer *)
Definition test_parse_enclosed_decl_pointer : case :=
  (NDecl, [],
   [TTok KwChar; TTok LParen; TTok Asterisk; TIdent [112]; TTok RParen; TTok Semicolon; TTok CtEOF],
   Some (new_ast AST_DECL [(new_ast AST_DECL_SPECS [(new_ast AST_TYPE_CHAR [])]); (new_ast AST_INIT_DECLOR_LIST [(new_ast AST_INIT_DECLOR [(new_ast AST_PTR_DECLOR [(new_identifier_ast AST_IDENT_DECLOR [112])])])])])).
Example test_parse_enclosed_decl_pointer_ok : run test_parse_enclosed_decl_pointer = snd test_parse_enclosed_decl_pointer. Proof. vm_compute. reflexivity. Qed.
(** tests/parser/test_declaration.c test_parse_enclosed_decl_array *)
Definition test_parse_enclosed_decl_array : case :=
  (NDecl, [],
   [TTok KwInt; TTok LParen; TTok Asterisk; TIdent [97; 112; 102; 105]; TTok LBracket; TInt (new_signed IInt 3); TTok RBracket; TTok RParen; TTok LParen; TTok KwInt; TTok Asterisk; TIdent [120]; TTok Comma; TTok KwInt; TTok Asterisk; TIdent [121]; TTok RParen; TTok Semicolon; TTok CtEOF],
   Some (new_ast AST_DECL [(new_ast AST_DECL_SPECS [(new_ast AST_TYPE_INT [])]); (new_ast AST_INIT_DECLOR_LIST [(new_ast AST_INIT_DECLOR [(new_ast AST_ARRAY_DECLOR [(new_ast AST_PTR_DECLOR [(new_ast AST_FUNC_DECLOR [(new_identifier_ast AST_IDENT_DECLOR [97; 112; 102; 105]); (new_ast AST_PARAM_LIST [(new_ast AST_PARAM_DECL [(new_ast AST_DECL_SPECS [(new_ast AST_TYPE_INT [])]); (new_ast AST_PTR_DECLOR [(new_identifier_ast AST_IDENT_DECLOR [120])])]); (new_ast AST_PARAM_DECL [(new_ast AST_DECL_SPECS [(new_ast AST_TYPE_INT [])]); (new_ast AST_PTR_DECLOR [(new_identifier_ast AST_IDENT_DECLOR [121])])])])])]); (new_iliteral_ast AST_INT_EXPR (new_signed IInt 3))])])])])).
Example test_parse_enclosed_decl_array_ok : run test_parse_enclosed_decl_array = snd test_parse_enclosed_decl_array. Proof. vm_compute. reflexivity. Qed.
(** tests/parser/test_declaration.c test_parse_enclosed_decl_function *)
Definition test_parse_enclosed_decl_function : case :=
  (NDecl, [],
   [TTok KwVoid; TTok LParen; TTok Asterisk; TIdent [115; 105; 103; 110; 97; 108]; TTok LParen; TTok KwInt; TIdent [115; 105; 103]; TTok Comma; TTok KwVoid; TTok LParen; TTok Asterisk; TIdent [102; 117; 110; 99]; TTok RParen; TTok LParen; TTok KwInt; TTok RParen; TTok RParen; TTok RParen; TTok LParen; TTok KwInt; TTok RParen; TTok Semicolon; TTok CtEOF],
   Some (new_ast AST_DECL [(new_ast AST_DECL_SPECS [(new_ast AST_TYPE_VOID [])]); (new_ast AST_INIT_DECLOR_LIST [(new_ast AST_INIT_DECLOR [(new_ast AST_FUNC_DECLOR [(new_ast AST_PTR_DECLOR [(new_ast AST_FUNC_DECLOR [(new_identifier_ast AST_IDENT_DECLOR [115; 105; 103; 110; 97; 108]); (new_ast AST_PARAM_LIST [(new_ast AST_PARAM_DECL [(new_ast AST_DECL_SPECS [(new_ast AST_TYPE_INT [])]); (new_ast AST_ABS_DECLOR [])])])])]); (new_ast AST_PARAM_LIST [(new_ast AST_PARAM_DECL [(new_ast AST_DECL_SPECS [(new_ast AST_TYPE_INT [])]); (new_identifier_ast AST_IDENT_DECLOR [115; 105; 103])]); (new_ast AST_PARAM_DECL [(new_ast AST_DECL_SPECS [(new_ast AST_TYPE_VOID [])]); (new_ast AST_PTR_DECLOR [(new_ast AST_FUNC_DECLOR [(new_identifier_ast AST_IDENT_DECLOR [102; 117; 110; 99]); (new_ast AST_PARAM_LIST [(new_ast AST_PARAM_DECL [(new_ast AST_DECL_SPECS [(new_ast AST_TYPE_INT [])]); (new_ast AST_ABS_DECLOR [])])])])])])])])])])])).
Example test_parse_enclosed_decl_function_ok : run test_parse_enclosed_decl_function = snd test_parse_enclosed_decl_function. Proof. vm_compute. reflexivity. Qed.
(** tests/parser/test_declaration.c test_parse_enclosed_decl_abstract_params *)
Definition test_parse_enclosed_decl_abstract_params : case :=
  (NDecl, [],
   [TTok KwVoid; TTok LParen; TTok Asterisk; TIdent [115; 105; 103; 110; 97; 108]; TTok LParen; TTok KwInt; TTok Comma; TTok KwVoid; TTok LParen; TTok Asterisk; TTok RParen; TTok LParen; TTok KwInt; TTok RParen; TTok RParen; TTok RParen; TTok LParen; TTok KwInt; TTok RParen; TTok Semicolon; TTok CtEOF],
   Some (new_ast AST_DECL [(new_ast AST_DECL_SPECS [(new_ast AST_TYPE_VOID [])]); (new_ast AST_INIT_DECLOR_LIST [(new_ast AST_INIT_DECLOR [(new_ast AST_FUNC_DECLOR [(new_ast AST_PTR_DECLOR [(new_ast AST_FUNC_DECLOR [(new_identifier_ast AST_IDENT_DECLOR [115; 105; 103; 110; 97; 108]); (new_ast AST_PARAM_LIST [(new_ast AST_PARAM_DECL [(new_ast AST_DECL_SPECS [(new_ast AST_TYPE_INT [])]); (new_ast AST_ABS_DECLOR [])])])])]); (new_ast AST_PARAM_LIST [(new_ast AST_PARAM_DECL [(new_ast AST_DECL_SPECS [(new_ast AST_TYPE_INT [])]); (new_ast AST_ABS_DECLOR [])]); (new_ast AST_PARAM_DECL [(new_ast AST_DECL_SPECS [(new_ast AST_TYPE_VOID [])]); (new_ast AST_PTR_DECLOR [(new_ast AST_FUNC_DECLOR [(new_ast AST_ABS_DECLOR []); (new_ast AST_PARAM_LIST [(new_ast AST_PARAM_DECL [(new_ast AST_DECL_SPECS [(new_ast AST_TYPE_INT [])]); (new_ast AST_ABS_DECLOR [])])])])])])])])])])])).
Example test_parse_enclosed_decl_abstract_params_ok : run test_parse_enclosed_decl_abstract_params = snd test_parse_enclosed_decl_abstract_params. Proof. vm_compute. reflexivity. Qed.
(** tests/parser/test_declaration.c test_parse_expr_init *)
Definition test_parse_expr_init : case :=
  (NDecl, [],
   [TTok KwInt; TIdent [115; 99; 97; 108; 97; 114]; TTok Equal; TIdent [120]; TTok Equal; TInt (new_signed IInt 2); TTok Semicolon; TTok CtEOF],
   Some (new_ast AST_DECL [(new_ast AST_DECL_SPECS [(new_ast AST_TYPE_INT [])]); (new_ast AST_INIT_DECLOR_LIST [(new_ast AST_INIT_DECLOR [(new_identifier_ast AST_IDENT_DECLOR [115; 99; 97; 108; 97; 114]); (new_ast AST_ASSIGN_EXPR [(new_identifier_ast AST_IDENT_EXPR [120]); (new_iliteral_ast AST_INT_EXPR (new_signed IInt 2))])])])])).
Example test_parse_expr_init_ok : run test_parse_expr_init = snd test_parse_expr_init. Proof. vm_compute. reflexivity. Qed.
(** tests/parser/test_declaration.c test_parse_list_init *)
Definition test_parse_list_init : case :=
  (NDecl, [],
   [TTok KwInt; TIdent [97; 114; 114; 97; 121]; TTok LBracket; TInt (new_signed IInt 5); TTok RBracket; TTok Equal; TTok LBrace; TInt (new_signed IInt 1); TTok Comma; TInt (new_signed IInt 2); TTok RBrace; TTok Semicolon; TTok CtEOF],
   Some (new_ast AST_DECL [(new_ast AST_DECL_SPECS [(new_ast AST_TYPE_INT [])]); (new_ast AST_INIT_DECLOR_LIST [(new_ast AST_INIT_DECLOR [(new_ast AST_ARRAY_DECLOR [(new_identifier_ast AST_IDENT_DECLOR [97; 114; 114; 97; 121]); (new_iliteral_ast AST_INT_EXPR (new_signed IInt 5))]); (new_ast AST_INIT_LIST [(new_iliteral_ast AST_INT_EXPR (new_signed IInt 1)); (new_iliteral_ast AST_INT_EXPR (new_signed IInt 2))])])])])).
Example test_parse_list_init_ok : run test_parse_list_init = snd test_parse_list_init. Proof. vm_compute. reflexivity. Qed.
(** tests/parser/test_declaration.c test_parse_list_init_comma *)
Definition test_parse_list_init_comma : case :=
  (NDecl, [],
   [TTok KwInt; TIdent [97; 114; 114; 97; 121]; TTok LBracket; TInt (new_signed IInt 5); TTok RBracket; TTok Equal; TTok LBrace; TInt (new_signed IInt 1); TTok Comma; TTok RBrace; TTok Semicolon; TTok CtEOF],
   Some (new_ast AST_DECL [(new_ast AST_DECL_SPECS [(new_ast AST_TYPE_INT [])]); (new_ast AST_INIT_DECLOR_LIST [(new_ast AST_INIT_DECLOR [(new_ast AST_ARRAY_DECLOR [(new_identifier_ast AST_IDENT_DECLOR [97; 114; 114; 97; 121]); (new_iliteral_ast AST_INT_EXPR (new_signed IInt 5))]); (new_ast AST_INIT_LIST [(new_iliteral_ast AST_INT_EXPR (new_signed IInt 1))])])])])).
Example test_parse_list_init_comma_ok : run test_parse_list_init_comma = snd test_parse_list_init_comma. Proof. vm_compute. reflexivity. Qed.
(** tests/parser/test_declaration_error.c test_parse_decl_error *)
Definition test_parse_decl_error : case :=
  (NDecl, [],
   [TTok KwInt; TIdent [120]; TTok CtEOF],
   None).
Example test_parse_decl_error_ok : errs test_parse_decl_error = true. Proof. vm_compute. reflexivity. Qed.
(** tests/parser/test_declaration_error.c test_parse_decl_specifier_error_empty *)
Definition test_parse_decl_specifier_error_empty : case :=
  (NDecl, [],
   [TIdent [120]; TTok Semicolon; TTok CtEOF],
   None).
Example test_parse_decl_specifier_error_empty_ok : errs test_parse_decl_specifier_error_empty = true. Proof. vm_compute. reflexivity. Qed.
(** tests/parser/test_declaration_error.c test_parse_struct_specifier_error_name *)
Definition test_parse_struct_specifier_error_name : case :=
  (NDecl, [],
   [TTok KwStruct; TStr [69; 114; 114; 111; 114]; TTok LBrace; TTok CtInt; TIdent [120]; TTok Semicolon; TTok RBrace; TIdent [101; 114; 114]; TTok Semicolon; TTok CtEOF],
   None).
Example test_parse_struct_specifier_error_name_ok : errs test_parse_struct_specifier_error_name = true. Proof. vm_compute. reflexivity. Qed.
(** tests/parser/test_declaration_error.c test_parse_struct_specifier_error_braces *)
Definition test_parse_struct_specifier_error_braces : case :=
  (NDecl, [],
   [TTok KwStruct; TIdent [69; 114; 114; 111; 114]; TTok LBrace; TTok KwInt; TIdent [120]; TTok Semicolon; TIdent [101; 114; 114]; TTok Semicolon; TTok CtEOF],
   None).
Example test_parse_struct_specifier_error_braces_ok : errs test_parse_struct_specifier_error_braces = true. Proof. vm_compute. reflexivity. Qed.
(** tests/parser/test_declaration_error.c test_parse_struct_declaration_list_error_empty *)
Definition test_parse_struct_declaration_list_error_empty : case :=
  (NDecl, [],
   [TTok KwStruct; TIdent [69; 114; 114; 111; 114]; TTok LBrace; TTok RBrace; TIdent [101; 114; 114]; TTok Semicolon; TTok CtEOF],
   None).
Example test_parse_struct_declaration_list_error_empty_ok : errs test_parse_struct_declaration_list_error_empty = true. Proof. vm_compute. reflexivity. Qed.
(** tests/parser/test_declaration_error.c test_parse_struct_declaration_error *)
Definition test_parse_struct_declaration_error : case :=
  (NDecl, [],
   [TTok KwStruct; TIdent [69; 114; 114; 111; 114]; TTok LBrace; TTok KwInt; TIdent [120]; TTok RBrace; TIdent [101; 114; 114]; TTok Semicolon; TTok CtEOF],
   None).
Example test_parse_struct_declaration_error_ok : errs test_parse_struct_declaration_error = true. Proof. vm_compute. reflexivity. Qed.
(** tests/parser/test_declaration_error.c test_parse_specifier_qualifier_list_error_struct_empty *)
Definition test_parse_specifier_qualifier_list_error_struct_empty : case :=
  (NDecl, [],
   [TTok KwStruct; TIdent [69; 114; 114; 111; 114]; TTok LBrace; TIdent [120]; TTok Semicolon; TTok RBrace; TIdent [101; 114; 114]; TTok Semicolon; TTok CtEOF],
   None).
Example test_parse_specifier_qualifier_list_error_struct_empty_ok : errs test_parse_specifier_qualifier_list_error_struct_empty = true. Proof. vm_compute. reflexivity. Qed.
(** tests/parser/test_declaration_error.c test_parse_specifier_qualifier_list_error_child *)
Definition test_parse_specifier_qualifier_list_error_child : case :=
  (NDecl, [],
   [TTok KwStruct; TIdent [69; 114; 114; 111; 114]; TTok LBrace; TTok KwStruct; TIdent [78; 101; 115; 116; 101; 100]; TTok LBrace; TTok RBrace; TIdent [120]; TTok Semicolon; TTok RBrace; TTok Semicolon; TTok CtEOF],
   None).
Example test_parse_specifier_qualifier_list_error_child_ok : errs test_parse_specifier_qualifier_list_error_child = true. Proof. vm_compute. reflexivity. Qed.
(** tests/parser/test_declaration_error.c test_parse_struct_declarator_list_error_comma *)
Definition test_parse_struct_declarator_list_error_comma : case :=
  (NDecl, [],
   [TTok KwStruct; TIdent [69; 114; 114; 111; 114]; TTok LBrace; TTok KwInt; TIdent [120]; TIdent [121]; TTok Semicolon; TTok RBrace; TIdent [101; 114; 114]; TTok Semicolon; TTok CtEOF],
   None).
Example test_parse_struct_declarator_list_error_comma_ok : errs test_parse_struct_declarator_list_error_comma = true. Proof. vm_compute. reflexivity. Qed.
(** tests/parser/test_declaration_error.c test_parse_struct_declarator_list_error_empty *)
Definition test_parse_struct_declarator_list_error_empty : case :=
  (NDecl, [],
   [TTok KwStruct; TIdent [69; 114; 114; 111; 114]; TTok LBrace; TTok KwInt; TTok Asterisk; TTok Semicolon; TTok RBrace; TIdent [101; 114; 114]; TTok Semicolon; TTok CtEOF],
   None).
Example test_parse_struct_declarator_list_error_empty_ok : errs test_parse_struct_declarator_list_error_empty = true. Proof. vm_compute. reflexivity. Qed.
(** tests/parser/test_declaration_error.c test_parse_struct_declarator_error *)
Definition test_parse_struct_declarator_error : case :=
  (NDecl, [],
   [TTok KwStruct; TIdent [69; 114; 114; 111; 114]; TTok LBrace; TTok KwInt; TTok Asterisk; TTok Equal; TTok Semicolon; TTok RBrace; TIdent [101; 114; 114]; TTok Semicolon; TTok CtEOF],
   None).
Example test_parse_struct_declarator_error_ok : errs test_parse_struct_declarator_error = true. Proof. vm_compute. reflexivity. Qed.
(** tests/parser/test_declaration_error.c test_parse_enum_specifier_error_name *)
Definition test_parse_enum_specifier_error_name : case :=
  (NDecl, [],
   [TTok KwEnum; TInt (new_signed IInt 5); TTok LBrace; TIdent [69; 78; 85; 77; 95; 67; 79; 78; 83; 84]; TTok RBrace; TIdent [101; 114; 114]; TTok Semicolon; TTok CtEOF],
   None).
Example test_parse_enum_specifier_error_name_ok : errs test_parse_enum_specifier_error_name = true. Proof. vm_compute. reflexivity. Qed.
(** tests/parser/test_declaration_error.c test_parse_enumerator_list_error_braces *)
Definition test_parse_enumerator_list_error_braces : case :=
  (NDecl, [],
   [TTok KwEnum; TIdent [69; 114; 114; 111; 114]; TTok LBrace; TTok Comma; TTok RBrace; TIdent [101; 114; 114]; TTok Semicolon; TTok CtEOF],
   None).
Example test_parse_enumerator_list_error_braces_ok : errs test_parse_enumerator_list_error_braces = true. Proof. vm_compute. reflexivity. Qed.
(** tests/parser/test_declaration_error.c test_parse_enumerator_list_error_empty *)
Definition test_parse_enumerator_list_error_empty : case :=
  (NDecl, [],
   [TTok KwEnum; TIdent [69; 114; 114; 111; 114]; TTok LBrace; TTok RBrace; TIdent [101; 114; 114]; TTok Semicolon; TTok CtEOF],
   None).
Example test_parse_enumerator_list_error_empty_ok : errs test_parse_enumerator_list_error_empty = true. Proof. vm_compute. reflexivity. Qed.
(** tests/parser/test_declaration_error.c test_parse_enumerator_list_error_comma *)
Definition test_parse_enumerator_list_error_comma : case :=
  (NDecl, [],
   [TTok KwEnum; TIdent [69; 114; 114; 111; 114]; TTok LBrace; TIdent [69; 78; 85; 77; 95; 67; 79; 78; 83; 84]; TTok Semicolon; TTok RBrace; TIdent [101; 114; 114]; TTok Semicolon; TTok CtEOF],
   None).
Example test_parse_enumerator_list_error_comma_ok : errs test_parse_enumerator_list_error_comma = true. Proof. vm_compute. reflexivity. Qed.
(** tests/parser/test_declaration_error.c test_parse_enum_constant_error *)
Definition test_parse_enum_constant_error : case :=
  (NDecl, [],
   [TTok KwEnum; TIdent [69; 114; 114; 111; 114]; TTok LBrace; TStr [69; 78; 85; 77; 95; 67; 79; 78; 83; 84; 0]; TTok RBrace; TIdent [101; 114; 114]; TTok Semicolon; TTok CtEOF],
   None).
Example test_parse_enum_constant_error_ok : errs test_parse_enum_constant_error = true. Proof. vm_compute. reflexivity. Qed.
(** tests/parser/test_declaration_error.c test_parse_enum_constant_expr_error *)
Definition test_parse_enum_constant_expr_error : case :=
  (NDecl, [],
   [TTok KwEnum; TIdent [69; 114; 114; 111; 114]; TTok LBrace; TIdent [69; 78; 85; 77; 95; 67; 79; 78; 83; 84]; TTok Equal; TTok RBrace; TIdent [101; 114; 114]; TTok Semicolon; TTok CtEOF],
   None).
Example test_parse_enum_constant_expr_error_ok : errs test_parse_enum_constant_expr_error = true. Proof. vm_compute. reflexivity. Qed.
(** tests/parser/test_declaration_error.c test_parse_arithmetic_declarator_error *)
Definition test_parse_arithmetic_declarator_error : case :=
  (NDecl, [],
   [TTok KwInt; TTok KwReturn; TTok Semicolon; TTok CtEOF],
   None).
Example test_parse_arithmetic_declarator_error_ok : errs test_parse_arithmetic_declarator_error = true. Proof. vm_compute. reflexivity. Qed.
(** tests/parser/test_declaration_error.c test_parse_pointer_declarator_error *)
Definition test_parse_pointer_declarator_error : case :=
  (NDecl, [],
   [TTok KwInt; TTok Asterisk; TTok KwChar; TTok Semicolon; TTok CtEOF],
   None).
Example test_parse_pointer_declarator_error_ok : errs test_parse_pointer_declarator_error = true. Proof. vm_compute. reflexivity. Qed.
(** tests/parser/test_declaration_error.c test_parse_array_declarator_error_size *)
Definition test_parse_array_declarator_error_size : case :=
  (NDecl, [],
   [TTok KwInt; TIdent [120]; TTok LBracket; TTok Equal; TTok RBracket; TTok CtEOF],
   None).
Example test_parse_array_declarator_error_size_ok : errs test_parse_array_declarator_error_size = true. Proof. vm_compute. reflexivity. Qed.
(** tests/parser/test_declaration_error.c test_parse_array_declarator_error_bracket *)
Definition test_parse_array_declarator_error_bracket : case :=
  (NDecl, [],
   [TTok KwChar; TIdent [120]; TTok LBracket; TInt (new_signed IInt 3); TTok RBrace; TTok CtEOF],
   None).
Example test_parse_array_declarator_error_bracket_ok : errs test_parse_array_declarator_error_bracket = true. Proof. vm_compute. reflexivity. Qed.
(** tests/parser/test_declaration_error.c test_parse_function_declarator_error_return_type *)
Definition test_parse_function_declarator_error_return_type : case :=
  (NDecl, [],
   [TTok KwChar; TIdent [102]; TTok LParen; TIdent [97]; TTok RParen; TTok CtEOF],
   None).
Example test_parse_function_declarator_error_return_type_ok : errs test_parse_function_declarator_error_return_type = true. Proof. vm_compute. reflexivity. Qed.
(** tests/parser/test_declaration_error.c test_parse_function_declarator_error_param_decl *)
Definition test_parse_function_declarator_error_param_decl : case :=
  (NDecl, [],
   [TTok KwInt; TIdent [102]; TTok LParen; TTok KwChar; TTok LBracket; TTok RParen; TTok CtEOF],
   None).
Example test_parse_function_declarator_error_param_decl_ok : errs test_parse_function_declarator_error_param_decl = true. Proof. vm_compute. reflexivity. Qed.
(** tests/parser/test_declaration_error.c test_parse_function_declarator_error_param_list *)
Definition test_parse_function_declarator_error_param_list : case :=
  (NDecl, [],
   [TTok KwInt; TIdent [102]; TTok LParen; TTok KwChar; TIdent [97]; TTok CtEOF],
   None).
Example test_parse_function_declarator_error_param_list_ok : errs test_parse_function_declarator_error_param_list = true. Proof. vm_compute. reflexivity. Qed.
(** tests/parser/test_declaration_error.c test_parse_function_declarator_error_empty_list *)
Definition test_parse_function_declarator_error_empty_list : case :=
  (NDecl, [],
   [TTok KwInt; TIdent [102]; TTok LParen; TTok RParen; TTok CtEOF],
   None).
Example test_parse_function_declarator_error_empty_list_ok : errs test_parse_function_declarator_error_empty_list = true. Proof. vm_compute. reflexivity. Qed.
(** tests/parser/test_declaration_error.c test_parse_enclosed_decl_error_child *)
Definition test_parse_enclosed_decl_error_child : case :=
  (NDecl, [],
   [TTok KwInt; TTok LParen; TTok Asterisk; TTok RParen; TTok LBracket; TInt (new_signed IInt 3); TTok RBracket; TTok CtEOF],
   None).
Example test_parse_enclosed_decl_error_child_ok : errs test_parse_enclosed_decl_error_child = true. Proof. vm_compute. reflexivity. Qed.
(** tests/parser/test_declaration_error.c test_parse_enclosed_decl_error_paren *)
Definition test_parse_enclosed_decl_error_paren : case :=
  (NDecl, [],
   [TTok KwInt; TTok LParen; TTok Asterisk; TIdent [120]; TTok LBracket; TInt (new_signed IInt 3); TTok RBracket; TTok CtEOF],
   None).
Example test_parse_enclosed_decl_error_paren_ok : errs test_parse_enclosed_decl_error_paren = true. Proof. vm_compute. reflexivity. Qed.
(** tests/parser/test_declaration_error.c test_parse_init_expr_error *)
Definition test_parse_init_expr_error : case :=
  (NDecl, [],
   [TTok KwChar; TIdent [120]; TTok Equal; TTok Semicolon; TTok CtEOF],
   None).
Example test_parse_init_expr_error_ok : errs test_parse_init_expr_error = true. Proof. vm_compute. reflexivity. Qed.
(** tests/parser/test_declaration_error.c test_parse_init_list_error_braces *)
Definition test_parse_init_list_error_braces : case :=
  (NDecl, [],
   [TTok KwInt; TIdent [120]; TTok LBracket; TInt (new_signed IInt 3); TTok RBracket; TTok Equal; TTok LBrace; TTok Comma; TTok RBrace; TTok Semicolon; TTok CtEOF],
   None).
Example test_parse_init_list_error_braces_ok : errs test_parse_init_list_error_braces = true. Proof. vm_compute. reflexivity. Qed.
(** tests/parser/test_declaration_error.c test_parse_init_list_error_empty *)
Definition test_parse_init_list_error_empty : case :=
  (NDecl, [],
   [TTok KwInt; TIdent [120]; TTok Equal; TTok LBrace; TTok RBrace; TTok CtEOF],
   None).
Example test_parse_init_list_error_empty_ok : errs test_parse_init_list_error_empty = true. Proof. vm_compute. reflexivity. Qed.
(** tests/parser/test_declaration_error.c test_parse_init_list_error_comma *)
Definition test_parse_init_list_error_comma : case :=
  (NDecl, [],
   [TTok KwInt; TIdent [120]; TTok LBracket; TInt (new_signed IInt 3); TTok RBracket; TTok Equal; TTok LBrace; TInt (new_signed IInt 0); TInt (new_signed IInt 1); TTok RBrace; TTok CtEOF],
   None).
Example test_parse_init_list_error_comma_ok : errs test_parse_init_list_error_comma = true. Proof. vm_compute. reflexivity. Qed.
(** tests/parser/test_expression.c test_parse_assignment_expr *)
Definition test_parse_assignment_expr : case :=
  ((NAssign []), [],
   [TTok Asterisk; TIdent [120]; TTok Equal; TIdent [121]; TTok Equal; TIdent [112]; TTok Question; TIdent [112]; TTok Colon; TIdent [113]; TTok CtEOF],
   Some (new_ast AST_ASSIGN_EXPR [(new_ast AST_INDIR_EXPR [(new_identifier_ast AST_IDENT_EXPR [120])]); (new_ast AST_ASSIGN_EXPR [(new_identifier_ast AST_IDENT_EXPR [121]); (new_ast AST_COND_EXPR [(new_identifier_ast AST_IDENT_EXPR [112]); (new_identifier_ast AST_IDENT_EXPR [112]); (new_identifier_ast AST_IDENT_EXPR [113])])])])).
Example test_parse_assignment_expr_ok : run test_parse_assignment_expr = snd test_parse_assignment_expr. Proof. vm_compute. reflexivity. Qed.
(** tests/parser/test_expression.c test_parse_multiply_assignment_expr *)
Definition test_parse_multiply_assignment_expr : case :=
  ((NAssign []), [],
   [TIdent [120]; TTok AsteriskEqual; TIdent [121]; TTok AsteriskEqual; TIdent [122]; TTok CtEOF],
   Some (new_ast AST_MUL_ASSIGN_EXPR [(new_identifier_ast AST_IDENT_EXPR [120]); (new_ast AST_MUL_ASSIGN_EXPR [(new_identifier_ast AST_IDENT_EXPR [121]); (new_identifier_ast AST_IDENT_EXPR [122])])])).
Example test_parse_multiply_assignment_expr_ok : run test_parse_multiply_assignment_expr = snd test_parse_multiply_assignment_expr. Proof. vm_compute. reflexivity. Qed.
(** tests/parser/test_expression.c test_parse_division_assignment_expr *)
Definition test_parse_division_assignment_expr : case :=
  ((NAssign []), [],
   [TIdent [120]; TTok SlashEqual; TIdent [121]; TTok SlashEqual; TIdent [122]; TTok CtEOF],
   Some (new_ast AST_DIV_ASSIGN_EXPR [(new_identifier_ast AST_IDENT_EXPR [120]); (new_ast AST_DIV_ASSIGN_EXPR [(new_identifier_ast AST_IDENT_EXPR [121]); (new_identifier_ast AST_IDENT_EXPR [122])])])).
Example test_parse_division_assignment_expr_ok : run test_parse_division_assignment_expr = snd test_parse_division_assignment_expr. Proof. vm_compute. reflexivity. Qed.
(** tests/parser/test_expression.c test_parse_modulo_assignment_expr *)
Definition test_parse_modulo_assignment_expr : case :=
  ((NAssign []), [],
   [TIdent [120]; TTok PercentEqual; TIdent [121]; TTok PercentEqual; TIdent [122]; TTok CtEOF],
   Some (new_ast AST_MOD_ASSIGN_EXPR [(new_identifier_ast AST_IDENT_EXPR [120]); (new_ast AST_MOD_ASSIGN_EXPR [(new_identifier_ast AST_IDENT_EXPR [121]); (new_identifier_ast AST_IDENT_EXPR [122])])])).
Example test_parse_modulo_assignment_expr_ok : run test_parse_modulo_assignment_expr = snd test_parse_modulo_assignment_expr. Proof. vm_compute. reflexivity. Qed.
(** tests/parser/test_expression.c test_parse_add_assignment_expr *)
Definition test_parse_add_assignment_expr : case :=
  ((NAssign []), [],
   [TIdent [120]; TTok PlusEqual; TIdent [121]; TTok PlusEqual; TIdent [122]; TTok CtEOF],
   Some (new_ast AST_ADD_ASSIGN_EXPR [(new_identifier_ast AST_IDENT_EXPR [120]); (new_ast AST_ADD_ASSIGN_EXPR [(new_identifier_ast AST_IDENT_EXPR [121]); (new_identifier_ast AST_IDENT_EXPR [122])])])).
Example test_parse_add_assignment_expr_ok : run test_parse_add_assignment_expr = snd test_parse_add_assignment_expr. Proof. vm_compute. reflexivity. Qed.
(** tests/parser/test_expression.c test_parse_subtract_assignment_expr *)
Definition test_parse_subtract_assignment_expr : case :=
  ((NAssign []), [],
   [TIdent [120]; TTok MinusEqual; TIdent [121]; TTok MinusEqual; TIdent [122]; TTok CtEOF],
   Some (new_ast AST_SUB_ASSIGN_EXPR [(new_identifier_ast AST_IDENT_EXPR [120]); (new_ast AST_SUB_ASSIGN_EXPR [(new_identifier_ast AST_IDENT_EXPR [121]); (new_identifier_ast AST_IDENT_EXPR [122])])])).
Example test_parse_subtract_assignment_expr_ok : run test_parse_subtract_assignment_expr = snd test_parse_subtract_assignment_expr. Proof. vm_compute. reflexivity. Qed.
(** tests/parser/test_expression.c test_parse_lshift_assignment_expr *)
Definition test_parse_lshift_assignment_expr : case :=
  ((NAssign []), [],
   [TIdent [120]; TTok LessLessEqual; TIdent [121]; TTok LessLessEqual; TIdent [122]; TTok CtEOF],
   Some (new_ast AST_LSHIFT_ASSIGN_EXPR [(new_identifier_ast AST_IDENT_EXPR [120]); (new_ast AST_LSHIFT_ASSIGN_EXPR [(new_identifier_ast AST_IDENT_EXPR [121]); (new_identifier_ast AST_IDENT_EXPR [122])])])).
Example test_parse_lshift_assignment_expr_ok : run test_parse_lshift_assignment_expr = snd test_parse_lshift_assignment_expr. Proof. vm_compute. reflexivity. Qed.
(** tests/parser/test_expression.c test_parse_rshift_assignment_expr *)
Definition test_parse_rshift_assignment_expr : case :=
  ((NAssign []), [],
   [TIdent [120]; TTok GreaterGreaterEqual; TIdent [121]; TTok GreaterGreaterEqual; TIdent [122]; TTok CtEOF],
   Some (new_ast AST_RSHIFT_ASSIGN_EXPR [(new_identifier_ast AST_IDENT_EXPR [120]); (new_ast AST_RSHIFT_ASSIGN_EXPR [(new_identifier_ast AST_IDENT_EXPR [121]); (new_identifier_ast AST_IDENT_EXPR [122])])])).
Example test_parse_rshift_assignment_expr_ok : run test_parse_rshift_assignment_expr = snd test_parse_rshift_assignment_expr. Proof. vm_compute. reflexivity. Qed.
(** tests/parser/test_expression.c test_parse_bitwise_inclusive_or_assignment_expr *)
Definition test_parse_bitwise_inclusive_or_assignment_expr : case :=
  ((NAssign []), [],
   [TIdent [120]; TTok VBarEqual; TIdent [121]; TTok VBarEqual; TIdent [122]; TTok CtEOF],
   Some (new_ast AST_OR_ASSIGN_EXPR [(new_identifier_ast AST_IDENT_EXPR [120]); (new_ast AST_OR_ASSIGN_EXPR [(new_identifier_ast AST_IDENT_EXPR [121]); (new_identifier_ast AST_IDENT_EXPR [122])])])).
Example test_parse_bitwise_inclusive_or_assignment_expr_ok : run test_parse_bitwise_inclusive_or_assignment_expr = snd test_parse_bitwise_inclusive_or_assignment_expr. Proof. vm_compute. reflexivity. Qed.
(** tests/parser/test_expression.c test_parse_bitwise_exclusive_or_assignment_expr *)
Definition test_parse_bitwise_exclusive_or_assignment_expr : case :=
  ((NAssign []), [],
   [TIdent [120]; TTok CaretEqual; TIdent [121]; TTok CaretEqual; TIdent [122]; TTok CtEOF],
   Some (new_ast AST_XOR_ASSIGN_EXPR [(new_identifier_ast AST_IDENT_EXPR [120]); (new_ast AST_XOR_ASSIGN_EXPR [(new_identifier_ast AST_IDENT_EXPR [121]); (new_identifier_ast AST_IDENT_EXPR [122])])])).
Example test_parse_bitwise_exclusive_or_assignment_expr_ok : run test_parse_bitwise_exclusive_or_assignment_expr = snd test_parse_bitwise_exclusive_or_assignment_expr. Proof. vm_compute. reflexivity. Qed.
(** tests/parser/test_expression.c test_parse_bitwise_and_assignment_expr *)
Definition test_parse_bitwise_and_assignment_expr : case :=
  ((NAssign []), [],
   [TIdent [120]; TTok AndEqual; TIdent [121]; TTok AndEqual; TIdent [122]; TTok CtEOF],
   Some (new_ast AST_AND_ASSIGN_EXPR [(new_identifier_ast AST_IDENT_EXPR [120]); (new_ast AST_AND_ASSIGN_EXPR [(new_identifier_ast AST_IDENT_EXPR [121]); (new_identifier_ast AST_IDENT_EXPR [122])])])).
Example test_parse_bitwise_and_assignment_expr_ok : run test_parse_bitwise_and_assignment_expr = snd test_parse_bitwise_and_assignment_expr. Proof. vm_compute. reflexivity. Qed.
(** tests/parser/test_expression.c test_parse_conditional_expr *)
Definition test_parse_conditional_expr : case :=
  ((NAssign []), [],
   [TIdent [120]; TTok Greater; TInt (new_signed IInt 0); TTok Question; TIdent [120]; TTok Colon; TIdent [120]; TTok Less; TInt (new_signed IInt 0); TTok Question; TTok Minus; TIdent [120]; TTok Colon; TInt (new_signed IInt 0); TTok Semicolon; TTok CtEOF],
   Some (new_ast AST_COND_EXPR [(new_ast AST_GREATER_EXPR [(new_identifier_ast AST_IDENT_EXPR [120]); (new_iliteral_ast AST_INT_EXPR (new_signed IInt 0))]); (new_identifier_ast AST_IDENT_EXPR [120]); (new_ast AST_COND_EXPR [(new_ast AST_LESS_EXPR [(new_identifier_ast AST_IDENT_EXPR [120]); (new_iliteral_ast AST_INT_EXPR (new_signed IInt 0))]); (new_ast AST_NEG_EXPR [(new_identifier_ast AST_IDENT_EXPR [120])]); (new_iliteral_ast AST_INT_EXPR (new_signed IInt 0))])])).
Example test_parse_conditional_expr_ok : run test_parse_conditional_expr = snd test_parse_conditional_expr. Proof. vm_compute. reflexivity. Qed.
(** tests/parser/test_expression.c test_parse_logical_or_expr *)
Definition test_parse_logical_or_expr : case :=
  ((NAssign []), [],
   [TIdent [105]; TTok EqualEqual; TInt (new_signed IInt 0); TTok VBarVBar; TIdent [105]; TTok EqualEqual; TIdent [109]; TTok Minus; TInt (new_signed IInt 1); TTok VBarVBar; TIdent [106]; TTok EqualEqual; TInt (new_signed IInt 0); TTok VBarVBar; TIdent [106]; TTok EqualEqual; TIdent [110]; TTok Minus; TInt (new_signed IInt 1); TTok CtEOF],
   Some (new_ast AST_LOR_EXPR [(new_ast AST_LOR_EXPR [(new_ast AST_LOR_EXPR [(new_ast AST_EQUAL_EXPR [(new_identifier_ast AST_IDENT_EXPR [105]); (new_iliteral_ast AST_INT_EXPR (new_signed IInt 0))]); (new_ast AST_EQUAL_EXPR [(new_identifier_ast AST_IDENT_EXPR [105]); (new_ast AST_SUB_EXPR [(new_identifier_ast AST_IDENT_EXPR [109]); (new_iliteral_ast AST_INT_EXPR (new_signed IInt 1))])])]); (new_ast AST_EQUAL_EXPR [(new_identifier_ast AST_IDENT_EXPR [106]); (new_iliteral_ast AST_INT_EXPR (new_signed IInt 0))])]); (new_ast AST_EQUAL_EXPR [(new_identifier_ast AST_IDENT_EXPR [106]); (new_ast AST_SUB_EXPR [(new_identifier_ast AST_IDENT_EXPR [110]); (new_iliteral_ast AST_INT_EXPR (new_signed IInt 1))])])])).
Example test_parse_logical_or_expr_ok : run test_parse_logical_or_expr = snd test_parse_logical_or_expr. Proof. vm_compute. reflexivity. Qed.
(** tests/parser/test_expression.c test_parse_logical_and_expr *)
Definition test_parse_logical_and_expr : case :=
  ((NAssign []), [],
   [TIdent [99; 104; 101; 99; 107; 49]; TTok VBar; TIdent [99; 104; 101; 99; 107; 50]; TTok AndAnd; TIdent [118; 97; 108; 105; 100; 97; 116; 101]; TTok LParen; TIdent [111; 98; 106; 101; 99; 116]; TTok RParen; TTok CtEOF],
   Some (new_ast AST_LAND_EXPR [(new_ast AST_OR_EXPR [(new_identifier_ast AST_IDENT_EXPR [99; 104; 101; 99; 107; 49]); (new_identifier_ast AST_IDENT_EXPR [99; 104; 101; 99; 107; 50])]); (new_ast AST_CALL_EXPR [(new_identifier_ast AST_IDENT_EXPR [118; 97; 108; 105; 100; 97; 116; 101]); (new_ast AST_ARG_LIST [(new_identifier_ast AST_IDENT_EXPR [111; 98; 106; 101; 99; 116])])])])).
Example test_parse_logical_and_expr_ok : run test_parse_logical_and_expr = snd test_parse_logical_and_expr. Proof. vm_compute. reflexivity. Qed.
(** tests/parser/test_expression.c test_parse_bitwise_inclusive_or_expr *)
Definition test_parse_bitwise_inclusive_or_expr : case :=
  ((NAssign []), [],
   [TIdent [120]; TTok VBar; TIdent [121]; TTok Caret; TIdent [122]; TTok CtEOF],
   Some (new_ast AST_OR_EXPR [(new_identifier_ast AST_IDENT_EXPR [120]); (new_ast AST_XOR_EXPR [(new_identifier_ast AST_IDENT_EXPR [121]); (new_identifier_ast AST_IDENT_EXPR [122])])])).
Example test_parse_bitwise_inclusive_or_expr_ok : run test_parse_bitwise_inclusive_or_expr = snd test_parse_bitwise_inclusive_or_expr. Proof. vm_compute. reflexivity. Qed.
(** tests/parser/test_expression.c test_parse_bitwise_exclusive_or_expr *)
Definition test_parse_bitwise_exclusive_or_expr : case :=
  ((NAssign []), [],
   [TIdent [120]; TTok Caret; TIdent [121]; TTok And; TIdent [122]; TTok CtEOF],
   Some (new_ast AST_XOR_EXPR [(new_identifier_ast AST_IDENT_EXPR [120]); (new_ast AST_AND_EXPR [(new_identifier_ast AST_IDENT_EXPR [121]); (new_identifier_ast AST_IDENT_EXPR [122])])])).
Example test_parse_bitwise_exclusive_or_expr_ok : run test_parse_bitwise_exclusive_or_expr = snd test_parse_bitwise_exclusive_or_expr. Proof. vm_compute. reflexivity. Qed.
(** tests/parser/test_expression.c test_parse_bitwise_and_expr *)
Definition test_parse_bitwise_and_expr : case :=
  ((NAssign []), [],
   [TIdent [120]; TTok EqualEqual; TInt (new_signed IInt 1); TTok And; TIdent [121]; TTok CtEOF],
   Some (new_ast AST_AND_EXPR [(new_ast AST_EQUAL_EXPR [(new_identifier_ast AST_IDENT_EXPR [120]); (new_iliteral_ast AST_INT_EXPR (new_signed IInt 1))]); (new_identifier_ast AST_IDENT_EXPR [121])])).
Example test_parse_bitwise_and_expr_ok : run test_parse_bitwise_and_expr = snd test_parse_bitwise_and_expr. Proof. vm_compute. reflexivity. Qed.
(** tests/parser/test_expression.c test_parse_equal_expr *)
Definition test_parse_equal_expr : case :=
  ((NAssign []), [],
   [TIdent [120]; TTok GreaterEqual; TInt (new_signed IInt 1); TTok EqualEqual; TIdent [121]; TTok Less; TInt (new_signed IInt 8); TTok CtEOF],
   Some (new_ast AST_EQUAL_EXPR [(new_ast AST_GREATEREQ_EXPR [(new_identifier_ast AST_IDENT_EXPR [120]); (new_iliteral_ast AST_INT_EXPR (new_signed IInt 1))]); (new_ast AST_LESS_EXPR [(new_identifier_ast AST_IDENT_EXPR [121]); (new_iliteral_ast AST_INT_EXPR (new_signed IInt 8))])])).
Example test_parse_equal_expr_ok : run test_parse_equal_expr = snd test_parse_equal_expr. Proof. vm_compute. reflexivity. Qed.
(** tests/parser/test_expression.c test_parse_not_equal_expr *)
Definition test_parse_not_equal_expr : case :=
  ((NAssign []), [],
   [TIdent [122; 101; 114; 111; 95; 102; 108; 97; 103]; TTok EqualEqual; TInt (new_signed IInt 0); TTok ExclamEqual; TInt (new_signed IInt 0); TTok CtEOF],
   Some (new_ast AST_NEQUAL_EXPR [(new_ast AST_EQUAL_EXPR [(new_identifier_ast AST_IDENT_EXPR [122; 101; 114; 111; 95; 102; 108; 97; 103]); (new_iliteral_ast AST_INT_EXPR (new_signed IInt 0))]); (new_iliteral_ast AST_INT_EXPR (new_signed IInt 0))])).
Example test_parse_not_equal_expr_ok : run test_parse_not_equal_expr = snd test_parse_not_equal_expr. Proof. vm_compute. reflexivity. Qed.
(** tests/parser/test_expression.c test_parse_less_expr *)
Definition test_parse_less_expr : case :=
  ((NAssign []), [],
   [TIdent [105]; TTok LessLess; TInt (new_signed IInt 1); TTok Less; TIdent [109]; TTok CtEOF],
   Some (new_ast AST_LESS_EXPR [(new_ast AST_LSHIFT_EXPR [(new_identifier_ast AST_IDENT_EXPR [105]); (new_iliteral_ast AST_INT_EXPR (new_signed IInt 1))]); (new_identifier_ast AST_IDENT_EXPR [109])])).
Example test_parse_less_expr_ok : run test_parse_less_expr = snd test_parse_less_expr. Proof. vm_compute. reflexivity. Qed.
(** tests/parser/test_expression.c test_parse_greater_expr *)
Definition test_parse_greater_expr : case :=
  ((NAssign []), [],
   [TIdent [106]; TTok GreaterGreater; TInt (new_signed IInt 1); TTok Greater; TIdent [110]; TTok CtEOF],
   Some (new_ast AST_GREATER_EXPR [(new_ast AST_RSHIFT_EXPR [(new_identifier_ast AST_IDENT_EXPR [106]); (new_iliteral_ast AST_INT_EXPR (new_signed IInt 1))]); (new_identifier_ast AST_IDENT_EXPR [110])])).
Example test_parse_greater_expr_ok : run test_parse_greater_expr = snd test_parse_greater_expr. Proof. vm_compute. reflexivity. Qed.
(** tests/parser/test_expression.c test_parse_less_equal_expr *)
Definition test_parse_less_equal_expr : case :=
  ((NAssign []), [],
   [TIdent [105]; TTok LessEqual; TIdent [106]; TTok Greater; TInt (new_signed IInt 0); TTok CtEOF],
   Some (new_ast AST_GREATER_EXPR [(new_ast AST_LESSEQ_EXPR [(new_identifier_ast AST_IDENT_EXPR [105]); (new_identifier_ast AST_IDENT_EXPR [106])]); (new_iliteral_ast AST_INT_EXPR (new_signed IInt 0))])).
Example test_parse_less_equal_expr_ok : run test_parse_less_equal_expr = snd test_parse_less_equal_expr. Proof. vm_compute. reflexivity. Qed.
(** tests/parser/test_expression.c test_parse_greater_equal_expr *)
Definition test_parse_greater_equal_expr : case :=
  ((NAssign []), [],
   [TIdent [106]; TTok GreaterEqual; TIdent [105]; TTok Less; TInt (new_signed IInt 1); TTok CtEOF],
   Some (new_ast AST_LESS_EXPR [(new_ast AST_GREATEREQ_EXPR [(new_identifier_ast AST_IDENT_EXPR [106]); (new_identifier_ast AST_IDENT_EXPR [105])]); (new_iliteral_ast AST_INT_EXPR (new_signed IInt 1))])).
Example test_parse_greater_equal_expr_ok : run test_parse_greater_equal_expr = snd test_parse_greater_equal_expr. Proof. vm_compute. reflexivity. Qed.
(** tests/parser/test_expression.c test_parse_lshift_expr *)
Definition test_parse_lshift_expr : case :=
  ((NAssign []), [],
   [TIdent [120]; TTok LessLess; TIdent [110]; TTok Plus; TInt (new_signed IInt 1); TTok CtEOF],
   Some (new_ast AST_LSHIFT_EXPR [(new_identifier_ast AST_IDENT_EXPR [120]); (new_ast AST_ADD_EXPR [(new_identifier_ast AST_IDENT_EXPR [110]); (new_iliteral_ast AST_INT_EXPR (new_signed IInt 1))])])).
Example test_parse_lshift_expr_ok : run test_parse_lshift_expr = snd test_parse_lshift_expr. Proof. vm_compute. reflexivity. Qed.
(** tests/parser/test_expression.c test_parse_rshift_expr *)
Definition test_parse_rshift_expr : case :=
  ((NAssign []), [],
   [TIdent [121]; TTok GreaterGreater; TIdent [109]; TTok Minus; TInt (new_signed IInt 1); TTok CtEOF],
   Some (new_ast AST_RSHIFT_EXPR [(new_identifier_ast AST_IDENT_EXPR [121]); (new_ast AST_SUB_EXPR [(new_identifier_ast AST_IDENT_EXPR [109]); (new_iliteral_ast AST_INT_EXPR (new_signed IInt 1))])])).
Example test_parse_rshift_expr_ok : run test_parse_rshift_expr = snd test_parse_rshift_expr. Proof. vm_compute. reflexivity. Qed.
(** tests/parser/test_expression.c test_parse_add_expr *)
Definition test_parse_add_expr : case :=
  ((NAssign []), [],
   [TInt (new_signed IInt 3); TTok Plus; TIdent [110]; TTok Asterisk; TInt (new_signed IInt 2); TTok CtEOF],
   Some (new_ast AST_ADD_EXPR [(new_iliteral_ast AST_INT_EXPR (new_signed IInt 3)); (new_ast AST_MUL_EXPR [(new_identifier_ast AST_IDENT_EXPR [110]); (new_iliteral_ast AST_INT_EXPR (new_signed IInt 2))])])).
Example test_parse_add_expr_ok : run test_parse_add_expr = snd test_parse_add_expr. Proof. vm_compute. reflexivity. Qed.
(** tests/parser/test_expression.c test_parse_subtract_expr *)
Definition test_parse_subtract_expr : case :=
  ((NAssign []), [],
   [TInt (new_signed IInt 3); TTok Plus; TInt (new_signed IInt 4); TTok Minus; TInt (new_signed IInt 6); TTok CtEOF],
   Some (new_ast AST_SUB_EXPR [(new_ast AST_ADD_EXPR [(new_iliteral_ast AST_INT_EXPR (new_signed IInt 3)); (new_iliteral_ast AST_INT_EXPR (new_signed IInt 4))]); (new_iliteral_ast AST_INT_EXPR (new_signed IInt 6))])).
Example test_parse_subtract_expr_ok : run test_parse_subtract_expr = snd test_parse_subtract_expr. Proof. vm_compute. reflexivity. Qed.
(** tests/parser/test_expression.c test_parse_multiply_expr *)
Definition test_parse_multiply_expr : case :=
  ((NAssign []), [],
   [TInt (new_signed IInt 4); TTok Asterisk; TTok Asterisk; TIdent [105; 110; 116; 101; 103; 101; 114; 95; 114; 101; 102]; TTok CtEOF],
   Some (new_ast AST_MUL_EXPR [(new_iliteral_ast AST_INT_EXPR (new_signed IInt 4)); (new_ast AST_INDIR_EXPR [(new_identifier_ast AST_IDENT_EXPR [105; 110; 116; 101; 103; 101; 114; 95; 114; 101; 102])])])).
Example test_parse_multiply_expr_ok : run test_parse_multiply_expr = snd test_parse_multiply_expr. Proof. vm_compute. reflexivity. Qed.
(** tests/parser/test_expression.c test_parse_division_expr *)
Definition test_parse_division_expr : case :=
  ((NAssign []), [],
   [TIdent [97; 109; 111; 117; 110; 116]; TTok Slash; TInt (new_signed IInt 2); TTok CtEOF],
   Some (new_ast AST_DIV_EXPR [(new_identifier_ast AST_IDENT_EXPR [97; 109; 111; 117; 110; 116]); (new_iliteral_ast AST_INT_EXPR (new_signed IInt 2))])).
Example test_parse_division_expr_ok : run test_parse_division_expr = snd test_parse_division_expr. Proof. vm_compute. reflexivity. Qed.
(** tests/parser/test_expression.c test_parse_modulo_expr *)
Definition test_parse_modulo_expr : case :=
  ((NAssign []), [],
   [TIdent [118; 97; 108; 117; 101]; TTok Asterisk; TInt (new_signed IInt 9); TTok Percent; TInt (new_signed IInt 5); TTok CtEOF],
   Some (new_ast AST_MOD_EXPR [(new_ast AST_MUL_EXPR [(new_identifier_ast AST_IDENT_EXPR [118; 97; 108; 117; 101]); (new_iliteral_ast AST_INT_EXPR (new_signed IInt 9))]); (new_iliteral_ast AST_INT_EXPR (new_signed IInt 5))])).
Example test_parse_modulo_expr_ok : run test_parse_modulo_expr = snd test_parse_modulo_expr. Proof. vm_compute. reflexivity. Qed.
(** tests/parser/test_expression.c test_parse_cast_expr *)
Definition test_parse_cast_expr : case :=
  ((NAssign []), [],
   [TTok LParen; TTok KwVoid; TTok LParen; TTok Asterisk; TTok RParen; TTok LParen; TTok KwVoid; TTok RParen; TTok RParen; TTok LParen; TTok KwInt; TTok RParen; TIdent [102]; TTok CtEOF],
   Some (new_ast AST_CAST_EXPR [(new_ast AST_TYPE_NAME [(new_ast AST_SPEC_QUAL_LIST [(new_ast AST_TYPE_VOID [])]); (new_ast AST_PTR_DECLOR [(new_ast AST_FUNC_DECLOR [(new_ast AST_ABS_DECLOR []); (new_ast AST_PARAM_LIST [(new_ast AST_PARAM_DECL [(new_ast AST_DECL_SPECS [(new_ast AST_TYPE_VOID [])]); (new_ast AST_ABS_DECLOR [])])])])])]); (new_ast AST_CAST_EXPR [(new_ast AST_TYPE_NAME [(new_ast AST_SPEC_QUAL_LIST [(new_ast AST_TYPE_INT [])]); (new_ast AST_ABS_DECLOR [])]); (new_identifier_ast AST_IDENT_EXPR [102])])])).
Example test_parse_cast_expr_ok : run test_parse_cast_expr = snd test_parse_cast_expr. Proof. vm_compute. reflexivity. Qed.
(** tests/parser/test_expression.c test_parse_preinc_expr *)
Definition test_parse_preinc_expr : case :=
  ((NAssign []), [],
   [TTok PlusPlus; TIdent [97]; TTok LBracket; TIdent [105]; TTok RBracket; TTok CtEOF],
   Some (new_ast AST_PREINC_EXPR [(new_ast AST_SUBSC_EXPR [(new_identifier_ast AST_IDENT_EXPR [97]); (new_identifier_ast AST_IDENT_EXPR [105])])])).
Example test_parse_preinc_expr_ok : run test_parse_preinc_expr = snd test_parse_preinc_expr. Proof. vm_compute. reflexivity. Qed.
(** tests/parser/test_expression.c test_parse_predec_expr *)
Definition test_parse_predec_expr : case :=
  ((NAssign []), [],
   [TTok MinusMinus; TIdent [106]; TTok CtEOF],
   Some (new_ast AST_PREDEC_EXPR [(new_identifier_ast AST_IDENT_EXPR [106])])).
Example test_parse_predec_expr_ok : run test_parse_predec_expr = snd test_parse_predec_expr. Proof. vm_compute. reflexivity. Qed.
(** tests/parser/test_expression.c test_parse_address_expr *)
Definition test_parse_address_expr : case :=
  ((NAssign []), [],
   [TTok And; TIdent [97]; TTok LBracket; TInt (new_signed IInt 1); TTok RBracket; TTok CtEOF],
   Some (new_ast AST_ADDR_EXPR [(new_ast AST_SUBSC_EXPR [(new_identifier_ast AST_IDENT_EXPR [97]); (new_iliteral_ast AST_INT_EXPR (new_signed IInt 1))])])).
Example test_parse_address_expr_ok : run test_parse_address_expr = snd test_parse_address_expr. Proof. vm_compute. reflexivity. Qed.
(** tests/parser/test_expression.c test_parse_indirection_expr *)
Definition test_parse_indirection_expr : case :=
  ((NAssign []), [],
   [TTok Asterisk; TIdent [112; 116; 114]; TTok CtEOF],
   Some (new_ast AST_INDIR_EXPR [(new_identifier_ast AST_IDENT_EXPR [112; 116; 114])])).
Example test_parse_indirection_expr_ok : run test_parse_indirection_expr = snd test_parse_indirection_expr. Proof. vm_compute. reflexivity. Qed.
(** tests/parser/test_expression.c test_parse_positive_expr *)
Definition test_parse_positive_expr : case :=
  ((NAssign []), [],
   [TTok Plus; TIdent [120]; TTok CtEOF],
   Some (new_ast AST_POS_EXPR [(new_identifier_ast AST_IDENT_EXPR [120])])).
Example test_parse_positive_expr_ok : run test_parse_positive_expr = snd test_parse_positive_expr. Proof. vm_compute. reflexivity. Qed.
(** tests/parser/test_expression.c test_parse_negative_expr *)
Definition test_parse_negative_expr : case :=
  ((NAssign []), [],
   [TIdent [120]; TTok Plus; TTok Minus; TIdent [121]; TTok CtEOF],
   Some (new_ast AST_ADD_EXPR [(new_identifier_ast AST_IDENT_EXPR [120]); (new_ast AST_NEG_EXPR [(new_identifier_ast AST_IDENT_EXPR [121])])])).
Example test_parse_negative_expr_ok : run test_parse_negative_expr = snd test_parse_negative_expr. Proof. vm_compute. reflexivity. Qed.
(** tests/parser/test_expression.c test_parse_bitwise_not_expr *)
Definition test_parse_bitwise_not_expr : case :=
  ((NAssign []), [],
   [TTok Tilde; TIdent [98; 105; 116; 115]; TTok CtEOF],
   Some (new_ast AST_NOT_EXPR [(new_identifier_ast AST_IDENT_EXPR [98; 105; 116; 115])])).
Example test_parse_bitwise_not_expr_ok : run test_parse_bitwise_not_expr = snd test_parse_bitwise_not_expr. Proof. vm_compute. reflexivity. Qed.
(** tests/parser/test_expression.c test_parse_logical_not_expr *)
Definition test_parse_logical_not_expr : case :=
  ((NAssign []), [],
   [TTok Exclam; TTok Exclam; TIdent [102; 108; 97; 103]; TTok CtEOF],
   Some (new_ast AST_LNOT_EXPR [(new_ast AST_LNOT_EXPR [(new_identifier_ast AST_IDENT_EXPR [102; 108; 97; 103])])])).
Example test_parse_logical_not_expr_ok : run test_parse_logical_not_expr = snd test_parse_logical_not_expr. Proof. vm_compute. reflexivity. Qed.
(** tests/parser/test_expression.c test_parse_sizeof_expr_typename *)
Definition test_parse_sizeof_expr_typename : case :=
  ((NAssign []), [],
   [TTok KwSizeof; TTok LParen; TTok KwInt; TTok Asterisk; TTok RParen; TTok CtEOF],
   Some (new_ast AST_SIZEOF_EXPR [(new_ast AST_TYPE_NAME [(new_ast AST_SPEC_QUAL_LIST [(new_ast AST_TYPE_INT [])]); (new_ast AST_PTR_DECLOR [(new_ast AST_ABS_DECLOR [])])])])).
Example test_parse_sizeof_expr_typename_ok : run test_parse_sizeof_expr_typename = snd test_parse_sizeof_expr_typename. Proof. vm_compute. reflexivity. Qed.
(** tests/parser/test_expression.c test_parse_sizeof_expr_expr *)
Definition test_parse_sizeof_expr_expr : case :=
  ((NAssign []), [],
   [TTok KwSizeof; TInt (new_signed IInt 1); TTok CtEOF],
   Some (new_ast AST_SIZEOF_EXPR [(new_iliteral_ast AST_INT_EXPR (new_signed IInt 1))])).
Example test_parse_sizeof_expr_expr_ok : run test_parse_sizeof_expr_expr = snd test_parse_sizeof_expr_expr. Proof. vm_compute. reflexivity. Qed.
(** tests/parser/test_expression.c test_parse_call_expr *)
Definition test_parse_call_expr : case :=
  ((NAssign []), [],
   [TIdent [102; 117; 110; 99; 116; 105; 111; 110]; TTok LParen; TIdent [120]; TTok Equal; TInt (new_signed IInt 7); TTok Comma; TInt (new_signed IInt 3); TTok RParen; TTok CtEOF],
   Some (new_ast AST_CALL_EXPR [(new_identifier_ast AST_IDENT_EXPR [102; 117; 110; 99; 116; 105; 111; 110]); (new_ast AST_ARG_LIST [(new_ast AST_ASSIGN_EXPR [(new_identifier_ast AST_IDENT_EXPR [120]); (new_iliteral_ast AST_INT_EXPR (new_signed IInt 7))]); (new_iliteral_ast AST_INT_EXPR (new_signed IInt 3))])])).
Example test_parse_call_expr_ok : run test_parse_call_expr = snd test_parse_call_expr. Proof. vm_compute. reflexivity. Qed.
(** tests/parser/test_expression.c test_parse_subscription_expr *)
Definition test_parse_subscription_expr : case :=
  ((NAssign []), [],
   [TIdent [97; 114; 114; 97; 121]; TTok LBracket; TInt (new_signed IInt 0); TTok RBracket; TTok LBracket; TIdent [105]; TTok RBracket; TTok CtEOF],
   Some (new_ast AST_SUBSC_EXPR [(new_ast AST_SUBSC_EXPR [(new_identifier_ast AST_IDENT_EXPR [97; 114; 114; 97; 121]); (new_iliteral_ast AST_INT_EXPR (new_signed IInt 0))]); (new_identifier_ast AST_IDENT_EXPR [105])])).
Example test_parse_subscription_expr_ok : run test_parse_subscription_expr = snd test_parse_subscription_expr. Proof. vm_compute. reflexivity. Qed.
(** tests/parser/test_expression.c test_parse_member_expr *)
Definition test_parse_member_expr : case :=
  ((NAssign []), [],
   [TIdent [115; 116; 114; 117; 99; 116; 117; 114; 101]; TTok Dot; TIdent [99; 104; 105; 108; 100]; TTok Dot; TIdent [103; 114; 97; 110; 100; 99; 104; 105; 108; 100]; TTok CtEOF],
   Some (new_ast AST_MEMBER_EXPR [(new_ast AST_MEMBER_EXPR [(new_identifier_ast AST_IDENT_EXPR [115; 116; 114; 117; 99; 116; 117; 114; 101]); (new_identifier_ast AST_IDENT_EXPR [99; 104; 105; 108; 100])]); (new_identifier_ast AST_IDENT_EXPR [103; 114; 97; 110; 100; 99; 104; 105; 108; 100])])).
Example test_parse_member_expr_ok : run test_parse_member_expr = snd test_parse_member_expr. Proof. vm_compute. reflexivity. Qed.
(** tests/parser/test_expression.c test_parse_tomember_expr *)
Definition test_parse_tomember_expr : case :=
  ((NAssign []), [],
   [TIdent [110; 111; 100; 101]; TTok Arrow; TIdent [110; 101; 120; 116]; TTok Arrow; TIdent [110; 101; 120; 116]; TTok CtEOF],
   Some (new_ast AST_TOMEMBER_EXPR [(new_ast AST_TOMEMBER_EXPR [(new_identifier_ast AST_IDENT_EXPR [110; 111; 100; 101]); (new_identifier_ast AST_IDENT_EXPR [110; 101; 120; 116])]); (new_identifier_ast AST_IDENT_EXPR [110; 101; 120; 116])])).
Example test_parse_tomember_expr_ok : run test_parse_tomember_expr = snd test_parse_tomember_expr. Proof. vm_compute. reflexivity. Qed.
(** tests/parser/test_expression.c test_parse_postinc_expr *)
Definition test_parse_postinc_expr : case :=
  ((NAssign []), [],
   [TIdent [105]; TTok PlusPlus; TTok CtEOF],
   Some (new_ast AST_POSTINC_EXPR [(new_identifier_ast AST_IDENT_EXPR [105])])).
Example test_parse_postinc_expr_ok : run test_parse_postinc_expr = snd test_parse_postinc_expr. Proof. vm_compute. reflexivity. Qed.
(** tests/parser/test_expression.c test_parse_postdec_expr *)
Definition test_parse_postdec_expr : case :=
  ((NAssign []), [],
   [TIdent [98]; TTok LBracket; TIdent [106]; TTok RBracket; TTok MinusMinus; TTok CtEOF],
   Some (new_ast AST_POSTDEC_EXPR [(new_ast AST_SUBSC_EXPR [(new_identifier_ast AST_IDENT_EXPR [98]); (new_identifier_ast AST_IDENT_EXPR [106])])])).
Example test_parse_postdec_expr_ok : run test_parse_postdec_expr = snd test_parse_postdec_expr. Proof. vm_compute. reflexivity. Qed.
(** tests/parser/test_expression.c test_parse_ident_expr *)
Definition test_parse_ident_expr : case :=
  ((NAssign []), [],
   [TIdent [118; 97; 114; 105; 97; 98; 108; 101]; TTok CtEOF],
   Some (new_identifier_ast AST_IDENT_EXPR [118; 97; 114; 105; 97; 98; 108; 101])).
Example test_parse_ident_expr_ok : run test_parse_ident_expr = snd test_parse_ident_expr. Proof. vm_compute. reflexivity. Qed.
(** tests/parser/test_expression.c test_parse_iliteral_expr_char *)
Definition test_parse_iliteral_expr_char : case :=
  ((NAssign []), [],
   [TChar (new_signed IInt 89); TTok CtEOF],
   Some (new_iliteral_ast AST_CHAR_EXPR (new_signed IInt 89))).
Example test_parse_iliteral_expr_char_ok : run test_parse_iliteral_expr_char = snd test_parse_iliteral_expr_char. Proof. vm_compute. reflexivity. Qed.
(** tests/parser/test_expression.c test_parse_iliteral_expr_int *)
Definition test_parse_iliteral_expr_int : case :=
  ((NAssign []), [],
   [TInt (new_signed IInt 3); TTok CtEOF],
   Some (new_iliteral_ast AST_INT_EXPR (new_signed IInt 3))).
Example test_parse_iliteral_expr_int_ok : run test_parse_iliteral_expr_int = snd test_parse_iliteral_expr_int. Proof. vm_compute. reflexivity. Qed.
(** tests/parser/test_expression.c test_parse_sliteral_expr *)
Definition test_parse_sliteral_expr : case :=
  ((NAssign []), [],
   [TStr [72; 101; 108; 108; 111; 0]; TTok CtEOF],
   Some (new_sliteral_ast AST_STRING_EXPR [72; 101; 108; 108; 111; 0])).
Example test_parse_sliteral_expr_ok : run test_parse_sliteral_expr = snd test_parse_sliteral_expr. Proof. vm_compute. reflexivity. Qed.
(** tests/parser/test_expression.c test_parse_parenthesized_expr *)
Definition test_parse_parenthesized_expr : case :=
  ((NAssign []), [],
   [TTok Exclam; TTok LParen; TIdent [97]; TTok Equal; TChar (new_signed IInt 88); TTok RParen; TTok CtEOF],
   Some (new_ast AST_LNOT_EXPR [(new_ast AST_ASSIGN_EXPR [(new_identifier_ast AST_IDENT_EXPR [97]); (new_iliteral_ast AST_CHAR_EXPR (new_signed IInt 88))])])).
Example test_parse_parenthesized_expr_ok : run test_parse_parenthesized_expr = snd test_parse_parenthesized_expr. Proof. vm_compute. reflexivity. Qed.
(** tests/parser/test_expression_error.c test_parse_assignment_expr_error *)
Definition test_parse_assignment_expr_error : case :=
  ((NAssign []), [],
   [TIdent [120]; TTok Equal; TTok Equal; TTok CtEOF],
   None).
Example test_parse_assignment_expr_error_ok : errs test_parse_assignment_expr_error = true. Proof. vm_compute. reflexivity. Qed.
(** tests/parser/test_expression_error.c test_parse_multiply_assignment_expr_error *)
Definition test_parse_multiply_assignment_expr_error : case :=
  ((NAssign []), [],
   [TIdent [120]; TTok AsteriskEqual; TTok AsteriskEqual; TTok CtEOF],
   None).
Example test_parse_multiply_assignment_expr_error_ok : errs test_parse_multiply_assignment_expr_error = true. Proof. vm_compute. reflexivity. Qed.
(** tests/parser/test_expression_error.c test_parse_division_assignment_expr_error *)
Definition test_parse_division_assignment_expr_error : case :=
  ((NAssign []), [],
   [TIdent [120]; TTok SlashEqual; TTok SlashEqual; TTok CtEOF],
   None).
Example test_parse_division_assignment_expr_error_ok : errs test_parse_division_assignment_expr_error = true. Proof. vm_compute. reflexivity. Qed.
(** tests/parser/test_expression_error.c test_parse_modulo_assignment_expr_error *)
Definition test_parse_modulo_assignment_expr_error : case :=
  ((NAssign []), [],
   [TIdent [120]; TTok PercentEqual; TTok PercentEqual; TTok CtEOF],
   None).
Example test_parse_modulo_assignment_expr_error_ok : errs test_parse_modulo_assignment_expr_error = true. Proof. vm_compute. reflexivity. Qed.
(** tests/parser/test_expression_error.c test_parse_add_assignment_expr_error *)
Definition test_parse_add_assignment_expr_error : case :=
  ((NAssign []), [],
   [TIdent [120]; TTok PlusEqual; TTok PlusEqual; TTok CtEOF],
   None).
Example test_parse_add_assignment_expr_error_ok : errs test_parse_add_assignment_expr_error = true. Proof. vm_compute. reflexivity. Qed.
(** tests/parser/test_expression_error.c test_parse_subtract_assignment_expr_error *)
Definition test_parse_subtract_assignment_expr_error : case :=
  ((NAssign []), [],
   [TIdent [120]; TTok MinusEqual; TTok MinusEqual; TTok CtEOF],
   None).
Example test_parse_subtract_assignment_expr_error_ok : errs test_parse_subtract_assignment_expr_error = true. Proof. vm_compute. reflexivity. Qed.
(** tests/parser/test_expression_error.c test_parse_lshift_assignment_expr_error *)
Definition test_parse_lshift_assignment_expr_error : case :=
  ((NAssign []), [],
   [TIdent [120]; TTok LessLessEqual; TTok LessLessEqual; TTok CtEOF],
   None).
Example test_parse_lshift_assignment_expr_error_ok : errs test_parse_lshift_assignment_expr_error = true. Proof. vm_compute. reflexivity. Qed.
(** tests/parser/test_expression_error.c test_parse_rshift_assignment_expr_error *)
Definition test_parse_rshift_assignment_expr_error : case :=
  ((NAssign []), [],
   [TIdent [120]; TTok GreaterGreaterEqual; TTok GreaterGreaterEqual; TTok CtEOF],
   None).
Example test_parse_rshift_assignment_expr_error_ok : errs test_parse_rshift_assignment_expr_error = true. Proof. vm_compute. reflexivity. Qed.
(** tests/parser/test_expression_error.c test_parse_bitwise_inclusive_or_assignment_expr_error *)
Definition test_parse_bitwise_inclusive_or_assignment_expr_error : case :=
  ((NAssign []), [],
   [TIdent [120]; TTok VBarEqual; TTok VBarEqual; TTok CtEOF],
   None).
Example test_parse_bitwise_inclusive_or_assignment_expr_error_ok : errs test_parse_bitwise_inclusive_or_assignment_expr_error = true. Proof. vm_compute. reflexivity. Qed.
(** tests/parser/test_expression_error.c test_parse_bitwise_exclusive_or_assignment_expr_error *)
Definition test_parse_bitwise_exclusive_or_assignment_expr_error : case :=
  ((NAssign []), [],
   [TIdent [120]; TTok CaretEqual; TTok CaretEqual; TTok CtEOF],
   None).
Example test_parse_bitwise_exclusive_or_assignment_expr_error_ok : errs test_parse_bitwise_exclusive_or_assignment_expr_error = true. Proof. vm_compute. reflexivity. Qed.
(** tests/parser/test_expression_error.c test_parse_bitwise_and_assignment_expr_error *)
Definition test_parse_bitwise_and_assignment_expr_error : case :=
  ((NAssign []), [],
   [TIdent [120]; TTok AndEqual; TTok AndEqual; TTok CtEOF],
   None).
Example test_parse_bitwise_and_assignment_expr_error_ok : errs test_parse_bitwise_and_assignment_expr_error = true. Proof. vm_compute. reflexivity. Qed.
(** tests/parser/test_expression_error.c test_parse_conditional_expr_error_condition *)
Definition test_parse_conditional_expr_error_condition : case :=
  ((NAssign []), [],
   [TTok Question; TIdent [120]; TTok Colon; TIdent [121]; TTok CtEOF],
   None).
Example test_parse_conditional_expr_error_condition_ok : errs test_parse_conditional_expr_error_condition = true. Proof. vm_compute. reflexivity. Qed.
(** tests/parser/test_expression_error.c test_parse_conditional_expr_error_lhs *)
Definition test_parse_conditional_expr_error_lhs : case :=
  ((NAssign []), [],
   [TIdent [120]; TTok GreaterEqual; TInt (new_signed IInt 0); TTok Question; TTok Colon; TTok Minus; TIdent [120]; TTok CtEOF],
   None).
Example test_parse_conditional_expr_error_lhs_ok : errs test_parse_conditional_expr_error_lhs = true. Proof. vm_compute. reflexivity. Qed.
(** tests/parser/test_expression_error.c test_parse_conditional_expr_error_colon *)
Definition test_parse_conditional_expr_error_colon : case :=
  ((NAssign []), [],
   [TIdent [120]; TTok GreaterEqual; TInt (new_signed IInt 0); TTok Question; TIdent [120]; TTok Semicolon; TTok Minus; TIdent [120]; TTok CtEOF],
   None).
Example test_parse_conditional_expr_error_colon_ok : errs test_parse_conditional_expr_error_colon = true. Proof. vm_compute. reflexivity. Qed.
(** tests/parser/test_expression_error.c test_parse_conditional_expr_error_rhs *)
Definition test_parse_conditional_expr_error_rhs : case :=
  ((NAssign []), [],
   [TIdent [120]; TTok GreaterEqual; TInt (new_signed IInt 0); TTok Question; TIdent [120]; TTok Colon; TTok CtEOF],
   None).
Example test_parse_conditional_expr_error_rhs_ok : errs test_parse_conditional_expr_error_rhs = true. Proof. vm_compute. reflexivity. Qed.
(** tests/parser/test_expression_error.c test_parse_logical_or_expr_error *)
Definition test_parse_logical_or_expr_error : case :=
  ((NAssign []), [],
   [TIdent [120]; TTok VBarVBar; TTok AndAnd; TTok CtEOF],
   None).
Example test_parse_logical_or_expr_error_ok : errs test_parse_logical_or_expr_error = true. Proof. vm_compute. reflexivity. Qed.
(** tests/parser/test_expression_error.c test_parse_bitwise_inclusive_or_expr_error *)
Definition test_parse_bitwise_inclusive_or_expr_error : case :=
  ((NAssign []), [],
   [TIdent [120]; TTok VBar; TTok VBar; TIdent [121]; TTok CtEOF],
   None).
Example test_parse_bitwise_inclusive_or_expr_error_ok : errs test_parse_bitwise_inclusive_or_expr_error = true. Proof. vm_compute. reflexivity. Qed.
(** tests/parser/test_expression_error.c test_parse_bitwise_exclusive_or_expr_error *)
Definition test_parse_bitwise_exclusive_or_expr_error : case :=
  ((NAssign []), [],
   [TIdent [120]; TTok Caret; TTok CtEOF],
   None).
Example test_parse_bitwise_exclusive_or_expr_error_ok : errs test_parse_bitwise_exclusive_or_expr_error = true. Proof. vm_compute. reflexivity. Qed.
(** tests/parser/test_expression_error.c test_parse_bitwise_and_expr_error *)
Definition test_parse_bitwise_and_expr_error : case :=
  ((NAssign []), [],
   [TIdent [120]; TTok And; TTok Dot; TIdent [121]; TTok CtEOF],
   None).
Example test_parse_bitwise_and_expr_error_ok : errs test_parse_bitwise_and_expr_error = true. Proof. vm_compute. reflexivity. Qed.
(** tests/parser/test_expression_error.c test_parse_logical_and_expr_error *)
Definition test_parse_logical_and_expr_error : case :=
  ((NAssign []), [],
   [TIdent [120]; TTok AndAnd; TTok VBarVBar; TTok CtEOF],
   None).
Example test_parse_logical_and_expr_error_ok : errs test_parse_logical_and_expr_error = true. Proof. vm_compute. reflexivity. Qed.
(** tests/parser/test_expression_error.c test_parse_equal_expr_error *)
Definition test_parse_equal_expr_error : case :=
  ((NAssign []), [],
   [TIdent [120]; TTok EqualEqual; TTok Exclam; TTok CtEOF],
   None).
Example test_parse_equal_expr_error_ok : errs test_parse_equal_expr_error = true. Proof. vm_compute. reflexivity. Qed.
(** tests/parser/test_expression_error.c test_parse_not_equal_expr_error *)
Definition test_parse_not_equal_expr_error : case :=
  ((NAssign []), [],
   [TIdent [120]; TTok ExclamEqual; TTok Equal; TTok CtEOF],
   None).
Example test_parse_not_equal_expr_error_ok : errs test_parse_not_equal_expr_error = true. Proof. vm_compute. reflexivity. Qed.
(** tests/parser/test_expression_error.c test_parse_less_expr_error *)
Definition test_parse_less_expr_error : case :=
  ((NAssign []), [],
   [TIdent [120]; TTok Less; TTok Greater; TTok CtEOF],
   None).
Example test_parse_less_expr_error_ok : errs test_parse_less_expr_error = true. Proof. vm_compute. reflexivity. Qed.
(** tests/parser/test_expression_error.c test_parse_greater_expr_error *)
Definition test_parse_greater_expr_error : case :=
  ((NAssign []), [],
   [TIdent [120]; TTok Greater; TTok Less; TTok CtEOF],
   None).
Example test_parse_greater_expr_error_ok : errs test_parse_greater_expr_error = true. Proof. vm_compute. reflexivity. Qed.
(** tests/parser/test_expression_error.c test_parse_less_equal_expr_error *)
Definition test_parse_less_equal_expr_error : case :=
  ((NAssign []), [],
   [TIdent [120]; TTok LessEqual; TTok GreaterEqual; TTok CtEOF],
   None).
Example test_parse_less_equal_expr_error_ok : errs test_parse_less_equal_expr_error = true. Proof. vm_compute. reflexivity. Qed.
(** tests/parser/test_expression_error.c test_parse_greater_equal_expr_error *)
Definition test_parse_greater_equal_expr_error : case :=
  ((NAssign []), [],
   [TIdent [120]; TTok GreaterEqual; TTok LessEqual; TTok CtEOF],
   None).
Example test_parse_greater_equal_expr_error_ok : errs test_parse_greater_equal_expr_error = true. Proof. vm_compute. reflexivity. Qed.
(** tests/parser/test_expression_error.c test_parse_lshift_expr_error *)
Definition test_parse_lshift_expr_error : case :=
  ((NAssign []), [],
   [TIdent [120]; TTok LessLess; TTok GreaterGreater; TTok CtEOF],
   None).
Example test_parse_lshift_expr_error_ok : errs test_parse_lshift_expr_error = true. Proof. vm_compute. reflexivity. Qed.
(** tests/parser/test_expression_error.c test_parse_rshift_expr_error *)
Definition test_parse_rshift_expr_error : case :=
  ((NAssign []), [],
   [TIdent [120]; TTok GreaterGreater; TTok LessLess; TTok CtEOF],
   None).
Example test_parse_rshift_expr_error_ok : errs test_parse_rshift_expr_error = true. Proof. vm_compute. reflexivity. Qed.
(** tests/parser/test_expression_error.c test_parse_add_expr_error *)
Definition test_parse_add_expr_error : case :=
  ((NAssign []), [],
   [TIdent [120]; TTok Plus; TTok LParen; TIdent [121]; TTok RBracket; TTok CtEOF],
   None).
Example test_parse_add_expr_error_ok : errs test_parse_add_expr_error = true. Proof. vm_compute. reflexivity. Qed.
(** tests/parser/test_expression_error.c test_parse_subtract_expr_error *)
Definition test_parse_subtract_expr_error : case :=
  ((NAssign []), [],
   [TIdent [120]; TTok Minus; TTok LParen; TIdent [121]; TTok Semicolon; TTok CtEOF],
   None).
Example test_parse_subtract_expr_error_ok : errs test_parse_subtract_expr_error = true. Proof. vm_compute. reflexivity. Qed.
(** tests/parser/test_expression_error.c test_parse_multiply_expr_error *)
Definition test_parse_multiply_expr_error : case :=
  ((NAssign []), [],
   [TIdent [97]; TTok Asterisk; TTok Asterisk; TTok CtEOF],
   None).
Example test_parse_multiply_expr_error_ok : errs test_parse_multiply_expr_error = true. Proof. vm_compute. reflexivity. Qed.
(** tests/parser/test_expression_error.c test_parse_division_expr_error *)
Definition test_parse_division_expr_error : case :=
  ((NAssign []), [],
   [TIdent [97]; TTok Slash; TTok Slash; TTok CtEOF],
   None).
Example test_parse_division_expr_error_ok : errs test_parse_division_expr_error = true. Proof. vm_compute. reflexivity. Qed.
(** tests/parser/test_expression_error.c test_parse_modulo_expr_error *)
Definition test_parse_modulo_expr_error : case :=
  ((NAssign []), [],
   [TIdent [97]; TTok Percent; TTok Percent; TTok CtEOF],
   None).
Example test_parse_modulo_expr_error_ok : errs test_parse_modulo_expr_error = true. Proof. vm_compute. reflexivity. Qed.
(** tests/parser/test_expression_error.c test_parse_cast_expr_error_paren *)
Definition test_parse_cast_expr_error_paren : case :=
  ((NAssign []), [],
   [TTok LParen; TTok KwVoid; TTok Asterisk; TInt (new_signed IInt 0); TTok CtEOF],
   None).
Example test_parse_cast_expr_error_paren_ok : errs test_parse_cast_expr_error_paren = true. Proof. vm_compute. reflexivity. Qed.
(** tests/parser/test_expression_error.c test_parse_cast_expr_error_type_name *)
Definition test_parse_cast_expr_error_type_name : case :=
  ((NAssign []), [],
   [TTok LParen; TTok KwInt; TTok LParen; TTok Asterisk; TIdent [116; 121; 112; 101]; TTok RParen; TTok RParen; TIdent [118; 97; 114; 105; 97; 98; 108; 101]; TTok CtEOF],
   None).
Example test_parse_cast_expr_error_type_name_ok : errs test_parse_cast_expr_error_type_name = true. Proof. vm_compute. reflexivity. Qed.
(** tests/parser/test_expression_error.c test_parse_preinc_expr_error *)
Definition test_parse_preinc_expr_error : case :=
  ((NAssign []), [],
   [TTok PlusPlus; TTok Equal; TTok CtEOF],
   None).
Example test_parse_preinc_expr_error_ok : errs test_parse_preinc_expr_error = true. Proof. vm_compute. reflexivity. Qed.
(** tests/parser/test_expression_error.c test_parse_predec_expr_error *)
Definition test_parse_predec_expr_error : case :=
  ((NAssign []), [],
   [TTok MinusMinus; TTok Equal; TTok CtEOF],
   None).
Example test_parse_predec_expr_error_ok : errs test_parse_predec_expr_error = true. Proof. vm_compute. reflexivity. Qed.
(** tests/parser/test_expression_error.c test_parse_address_expr_error *)
Definition test_parse_address_expr_error : case :=
  ((NAssign []), [],
   [TTok And; TTok Equal; TTok CtEOF],
   None).
Example test_parse_address_expr_error_ok : errs test_parse_address_expr_error = true. Proof. vm_compute. reflexivity. Qed.
(** tests/parser/test_expression_error.c test_parse_indirection_expr_error *)
Definition test_parse_indirection_expr_error : case :=
  ((NAssign []), [],
   [TTok Asterisk; TTok CtEOF],
   None).
Example test_parse_indirection_expr_error_ok : errs test_parse_indirection_expr_error = true. Proof. vm_compute. reflexivity. Qed.
(** tests/parser/test_expression_error.c test_parse_positive_expr_error *)
Definition test_parse_positive_expr_error : case :=
  ((NAssign []), [],
   [TTok Plus; TTok CtEOF],
   None).
Example test_parse_positive_expr_error_ok : errs test_parse_positive_expr_error = true. Proof. vm_compute. reflexivity. Qed.
(** tests/parser/test_expression_error.c test_parse_negative_expr_error *)
Definition test_parse_negative_expr_error : case :=
  ((NAssign []), [],
   [TTok Minus; TTok CtEOF],
   None).
Example test_parse_negative_expr_error_ok : errs test_parse_negative_expr_error = true. Proof. vm_compute. reflexivity. Qed.
(** tests/parser/test_expression_error.c test_parse_bitwise_not_expr_error *)
Definition test_parse_bitwise_not_expr_error : case :=
  ((NAssign []), [],
   [TTok Tilde; TTok CtEOF],
   None).
Example test_parse_bitwise_not_expr_error_ok : errs test_parse_bitwise_not_expr_error = true. Proof. vm_compute. reflexivity. Qed.
(** tests/parser/test_expression_error.c test_parse_logical_not_expr_error *)
Definition test_parse_logical_not_expr_error : case :=
  ((NAssign []), [],
   [TTok Exclam; TTok CtEOF],
   None).
Example test_parse_logical_not_expr_error_ok : errs test_parse_logical_not_expr_error = true. Proof. vm_compute. reflexivity. Qed.
(** tests/parser/test_expression_error.c test_parse_sizeof_expr_error_paren *)
Definition test_parse_sizeof_expr_error_paren : case :=
  ((NAssign []), [],
   [TTok KwSizeof; TTok Asterisk; TTok CtEOF],
   None).
Example test_parse_sizeof_expr_error_paren_ok : errs test_parse_sizeof_expr_error_paren = true. Proof. vm_compute. reflexivity. Qed.
(** tests/parser/test_expression_error.c test_parse_sizeof_expr_error_type_name *)
Definition test_parse_sizeof_expr_error_type_name : case :=
  ((NAssign []), [],
   [TTok KwSizeof; TTok LParen; TTok KwInt; TTok LParen; TTok Asterisk; TTok RBracket; TTok CtEOF],
   None).
Example test_parse_sizeof_expr_error_type_name_ok : errs test_parse_sizeof_expr_error_type_name = true. Proof. vm_compute. reflexivity. Qed.
(** tests/parser/test_expression_error.c test_parse_call_expr_error_arg_expr *)
Definition test_parse_call_expr_error_arg_expr : case :=
  ((NAssign []), [],
   [TIdent [102]; TTok LParen; TTok Comma; TTok RParen; TTok CtEOF],
   None).
Example test_parse_call_expr_error_arg_expr_ok : errs test_parse_call_expr_error_arg_expr = true. Proof. vm_compute. reflexivity. Qed.
(** tests/parser/test_expression_error.c test_parse_call_expr_error_arg_list *)
Definition test_parse_call_expr_error_arg_list : case :=
  ((NAssign []), [],
   [TIdent [102]; TTok LParen; TIdent [97]; TTok Exclam; TTok CtEOF],
   None).
Example test_parse_call_expr_error_arg_list_ok : errs test_parse_call_expr_error_arg_list = true. Proof. vm_compute. reflexivity. Qed.
(** tests/parser/test_expression_error.c test_parse_subscription_expr_error_index *)
Definition test_parse_subscription_expr_error_index : case :=
  ((NAssign []), [],
   [TIdent [120]; TTok LBracket; TTok Equal; TTok RBracket; TTok CtEOF],
   None).
Example test_parse_subscription_expr_error_index_ok : errs test_parse_subscription_expr_error_index = true. Proof. vm_compute. reflexivity. Qed.
(** tests/parser/test_expression_error.c test_parse_subscription_expr_error_bracket *)
Definition test_parse_subscription_expr_error_bracket : case :=
  ((NAssign []), [],
   [TIdent [120]; TTok LBracket; TInt (new_signed IInt 3); TTok RBrace; TTok CtEOF],
   None).
Example test_parse_subscription_expr_error_bracket_ok : errs test_parse_subscription_expr_error_bracket = true. Proof. vm_compute. reflexivity. Qed.
(** tests/parser/test_expression_error.c test_parse_member_expr_error *)
Definition test_parse_member_expr_error : case :=
  ((NAssign []), [],
   [TIdent [120]; TTok Dot; TInt (new_signed IInt 2); TTok CtEOF],
   None).
Example test_parse_member_expr_error_ok : errs test_parse_member_expr_error = true. Proof. vm_compute. reflexivity. Qed.
(** tests/parser/test_expression_error.c test_parse_tomember_expr_error *)
Definition test_parse_tomember_expr_error : case :=
  ((NAssign []), [],
   [TIdent [120]; TTok Arrow; TStr [121; 0]; TTok CtEOF],
   None).
Example test_parse_tomember_expr_error_ok : errs test_parse_tomember_expr_error = true. Proof. vm_compute. reflexivity. Qed.
(** tests/parser/test_expression_error.c test_parse_ident_expr_error_typedef_name *)
Definition test_parse_ident_expr_error_typedef_name : case :=
  ((NAssign []), [[84; 121; 112; 101]],
   [TIdent [84; 121; 112; 101]; TTok CtEOF],
   None).
Example test_parse_ident_expr_error_typedef_name_ok : errs test_parse_ident_expr_error_typedef_name = true. Proof. vm_compute. reflexivity. Qed.
(** tests/parser/test_expression_error.c test_parse_parenthesized_expr_error_child *)
Definition test_parse_parenthesized_expr_error_child : case :=
  ((NAssign []), [],
   [TTok LParen; TTok Semicolon; TTok RParen; TTok CtEOF],
   None).
Example test_parse_parenthesized_expr_error_child_ok : errs test_parse_parenthesized_expr_error_child = true. Proof. vm_compute. reflexivity. Qed.
(** tests/parser/test_expression_error.c test_parse_parenthesized_expr_error_paren *)
Definition test_parse_parenthesized_expr_error_paren : case :=
  ((NAssign []), [],
   [TTok LParen; TIdent [120]; TTok CtEOF],
   None).
Example test_parse_parenthesized_expr_error_paren_ok : errs test_parse_parenthesized_expr_error_paren = true. Proof. vm_compute. reflexivity. Qed.
(** tests/parser/test_statement.c test_parse_case_stmt *)
Definition test_parse_case_stmt : case :=
  (NStmt, [],
   [TTok KwCase; TInt (new_signed IInt 1); TTok Colon; TTok Semicolon; TTok CtEOF],
   Some (new_ast AST_CASE_STMT [(new_iliteral_ast AST_INT_EXPR (new_signed IInt 1)); (new_ast AST_NULL_STMT [])])).
Example test_parse_case_stmt_ok : run test_parse_case_stmt = snd test_parse_case_stmt. Proof. vm_compute. reflexivity. Qed.
(** tests/parser/test_statement.c test_parse_default_stmt *)
Definition test_parse_default_stmt : case :=
  (NStmt, [],
   [TTok KwDefault; TTok Colon; TTok Semicolon; TTok CtEOF],
   Some (new_ast AST_DEFAULT_STMT [(new_ast AST_NULL_STMT [])])).
Example test_parse_default_stmt_ok : run test_parse_default_stmt = snd test_parse_default_stmt. Proof. vm_compute. reflexivity. Qed.
(** tests/parser/test_statement.c test_parse_compound_stmt_complete_typedef *)
Definition test_parse_compound_stmt_complete_typedef : case :=
  (NStmt, [],
   [TTok LBrace; TTok KwTypedef; TTok KwInt; TTok Asterisk; TIdent [112; 105; 110; 116]; TTok Semicolon; TIdent [112; 105; 110; 116]; TIdent [112]; TTok Comma; TIdent [113]; TTok Semicolon; TTok Asterisk; TIdent [112]; TTok Equal; TTok Asterisk; TIdent [113]; TTok Equal; TInt (new_signed IInt 7); TTok Semicolon; TTok RBrace; TTok CtEOF],
   Some (new_ast AST_CMPD_STMT [(new_ast AST_DECL [(new_ast AST_DECL_SPECS [(new_ast AST_STG_TYPEDEF []); (new_ast AST_TYPE_INT [])]); (new_ast AST_INIT_DECLOR_LIST [(new_ast AST_INIT_DECLOR [(new_ast AST_PTR_DECLOR [(new_identifier_ast AST_IDENT_DECLOR [112; 105; 110; 116])])])])]); (new_ast AST_DECL [(new_ast AST_DECL_SPECS [(new_identifier_ast AST_TYPEDEF_NAME [112; 105; 110; 116])]); (new_ast AST_INIT_DECLOR_LIST [(new_ast AST_INIT_DECLOR [(new_identifier_ast AST_IDENT_DECLOR [112])]); (new_ast AST_INIT_DECLOR [(new_identifier_ast AST_IDENT_DECLOR [113])])])]); (new_ast AST_EXPR_STMT [(new_ast AST_ASSIGN_EXPR [(new_ast AST_INDIR_EXPR [(new_identifier_ast AST_IDENT_EXPR [112])]); (new_ast AST_ASSIGN_EXPR [(new_ast AST_INDIR_EXPR [(new_identifier_ast AST_IDENT_EXPR [113])]); (new_iliteral_ast AST_INT_EXPR (new_signed IInt 7))])])])])).
Example test_parse_compound_stmt_complete_typedef_ok : run test_parse_compound_stmt_complete_typedef = snd test_parse_compound_stmt_complete_typedef. Proof. vm_compute. reflexivity. Qed.
(** tests/parser/test_statement.c test_parse_compound_stmt_incomplete_typedef *)
Definition test_parse_compound_stmt_incomplete_typedef : case :=
  (NStmt, [],
   [TTok LBrace; TTok KwTypedef; TTok KwStruct; TIdent [83; 116; 114; 117; 99; 116]; TIdent [83; 116; 114; 117; 99; 116]; TTok Semicolon; TTok KwStruct; TIdent [83; 116; 114; 117; 99; 116]; TTok LBrace; TTok KwInt; TIdent [120]; TTok Comma; TIdent [121]; TTok Semicolon; TIdent [83; 116; 114; 117; 99; 116]; TTok Asterisk; TIdent [110; 101; 120; 116]; TTok Semicolon; TTok RBrace; TTok Semicolon; TIdent [83; 116; 114; 117; 99; 116]; TTok Asterisk; TIdent [115]; TTok Equal; TIdent [109; 97; 108; 108; 111; 99]; TTok LParen; TTok KwSizeof; TTok LParen; TIdent [83; 116; 114; 117; 99; 116]; TTok RParen; TTok RParen; TTok Semicolon; TTok RBrace; TTok CtEOF],
   Some (new_ast AST_CMPD_STMT [(new_ast AST_DECL [(new_ast AST_DECL_SPECS [(new_ast AST_STG_TYPEDEF []); (new_ast AST_TYPE_STRUCT [(new_identifier_ast AST_STRUCT_NAME [83; 116; 114; 117; 99; 116])])]); (new_ast AST_INIT_DECLOR_LIST [(new_ast AST_INIT_DECLOR [(new_identifier_ast AST_IDENT_DECLOR [83; 116; 114; 117; 99; 116])])])]); (new_ast AST_DECL [(new_ast AST_DECL_SPECS [(new_ast AST_TYPE_STRUCT [(new_identifier_ast AST_STRUCT_NAME [83; 116; 114; 117; 99; 116]); (new_ast AST_STRUCT_DECL_LIST [(new_ast AST_STRUCT_DECL [(new_ast AST_SPEC_QUAL_LIST [(new_ast AST_TYPE_INT [])]); (new_ast AST_STRUCT_DECLOR_LIST [(new_identifier_ast AST_IDENT_DECLOR [120]); (new_identifier_ast AST_IDENT_DECLOR [121])])]); (new_ast AST_STRUCT_DECL [(new_ast AST_SPEC_QUAL_LIST [(new_identifier_ast AST_TYPEDEF_NAME [83; 116; 114; 117; 99; 116])]); (new_ast AST_STRUCT_DECLOR_LIST [(new_ast AST_PTR_DECLOR [(new_identifier_ast AST_IDENT_DECLOR [110; 101; 120; 116])])])])])])])]); (new_ast AST_DECL [(new_ast AST_DECL_SPECS [(new_identifier_ast AST_TYPEDEF_NAME [83; 116; 114; 117; 99; 116])]); (new_ast AST_INIT_DECLOR_LIST [(new_ast AST_INIT_DECLOR [(new_ast AST_PTR_DECLOR [(new_identifier_ast AST_IDENT_DECLOR [115])]); (new_ast AST_CALL_EXPR [(new_identifier_ast AST_IDENT_EXPR [109; 97; 108; 108; 111; 99]); (new_ast AST_ARG_LIST [(new_ast AST_SIZEOF_EXPR [(new_ast AST_TYPE_NAME [(new_ast AST_SPEC_QUAL_LIST [(new_identifier_ast AST_TYPEDEF_NAME [83; 116; 114; 117; 99; 116])]); (new_ast AST_ABS_DECLOR [])])])])])])])])])).
Example test_parse_compound_stmt_incomplete_typedef_ok : run test_parse_compound_stmt_incomplete_typedef = snd test_parse_compound_stmt_incomplete_typedef. Proof. vm_compute. reflexivity. Qed.
(** tests/parser/test_statement.c test_parse_compound_stmt_int *)
Definition test_parse_compound_stmt_int : case :=
  (NStmt, [],
   [TTok LBrace; TTok KwInt; TIdent [120]; TTok Equal; TInt (new_signed IInt 3); TTok Comma; TIdent [121]; TTok Equal; TInt (new_signed IInt 1); TTok Comma; TTok Asterisk; TIdent [122]; TTok Semicolon; TTok Asterisk; TIdent [122]; TTok Equal; TIdent [120]; TTok Minus; TIdent [121]; TTok Semicolon; TIdent [120]; TTok Equal; TInt (new_signed IInt 2); TTok Asterisk; TIdent [120]; TTok Semicolon; TTok RBrace; TTok CtEOF],
   Some (new_ast AST_CMPD_STMT [(new_ast AST_DECL [(new_ast AST_DECL_SPECS [(new_ast AST_TYPE_INT [])]); (new_ast AST_INIT_DECLOR_LIST [(new_ast AST_INIT_DECLOR [(new_identifier_ast AST_IDENT_DECLOR [120]); (new_iliteral_ast AST_INT_EXPR (new_signed IInt 3))]); (new_ast AST_INIT_DECLOR [(new_identifier_ast AST_IDENT_DECLOR [121]); (new_iliteral_ast AST_INT_EXPR (new_signed IInt 1))]); (new_ast AST_INIT_DECLOR [(new_ast AST_PTR_DECLOR [(new_identifier_ast AST_IDENT_DECLOR [122])])])])]); (new_ast AST_EXPR_STMT [(new_ast AST_ASSIGN_EXPR [(new_ast AST_INDIR_EXPR [(new_identifier_ast AST_IDENT_EXPR [122])]); (new_ast AST_SUB_EXPR [(new_identifier_ast AST_IDENT_EXPR [120]); (new_identifier_ast AST_IDENT_EXPR [121])])])]); (new_ast AST_EXPR_STMT [(new_ast AST_ASSIGN_EXPR [(new_identifier_ast AST_IDENT_EXPR [120]); (new_ast AST_MUL_EXPR [(new_iliteral_ast AST_INT_EXPR (new_signed IInt 2)); (new_identifier_ast AST_IDENT_EXPR [120])])])])])).
Example test_parse_compound_stmt_int_ok : run test_parse_compound_stmt_int = snd test_parse_compound_stmt_int. Proof. vm_compute. reflexivity. Qed.
(** tests/parser/test_statement.c test_parse_compound_stmt_unsigned_int *)
Definition test_parse_compound_stmt_unsigned_int : case :=
  (NStmt, [],
   [TTok LBrace; TTok KwUnsigned; TTok KwInt; TIdent [120]; TTok Equal; TInt (new_unsigned IUInt 4); TTok Semicolon; TTok KwInt; TTok KwUnsigned; TIdent [121]; TTok Equal; TInt (new_unsigned IUInt 2); TTok Semicolon; TTok KwUnsigned; TTok Asterisk; TIdent [122]; TTok Semicolon; TTok Asterisk; TIdent [122]; TTok Equal; TIdent [120]; TTok Slash; TIdent [121]; TTok Semicolon; TTok RBrace; TTok CtEOF],
   Some (new_ast AST_CMPD_STMT [(new_ast AST_DECL [(new_ast AST_DECL_SPECS [(new_ast AST_TYPE_UNSIGNED []); (new_ast AST_TYPE_INT [])]); (new_ast AST_INIT_DECLOR_LIST [(new_ast AST_INIT_DECLOR [(new_identifier_ast AST_IDENT_DECLOR [120]); (new_iliteral_ast AST_INT_EXPR (new_unsigned IUInt 4))])])]); (new_ast AST_DECL [(new_ast AST_DECL_SPECS [(new_ast AST_TYPE_INT []); (new_ast AST_TYPE_UNSIGNED [])]); (new_ast AST_INIT_DECLOR_LIST [(new_ast AST_INIT_DECLOR [(new_identifier_ast AST_IDENT_DECLOR [121]); (new_iliteral_ast AST_INT_EXPR (new_unsigned IUInt 2))])])]); (new_ast AST_DECL [(new_ast AST_DECL_SPECS [(new_ast AST_TYPE_UNSIGNED [])]); (new_ast AST_INIT_DECLOR_LIST [(new_ast AST_INIT_DECLOR [(new_ast AST_PTR_DECLOR [(new_identifier_ast AST_IDENT_DECLOR [122])])])])]); (new_ast AST_EXPR_STMT [(new_ast AST_ASSIGN_EXPR [(new_ast AST_INDIR_EXPR [(new_identifier_ast AST_IDENT_EXPR [122])]); (new_ast AST_DIV_EXPR [(new_identifier_ast AST_IDENT_EXPR [120]); (new_identifier_ast AST_IDENT_EXPR [121])])])])])).
Example test_parse_compound_stmt_unsigned_int_ok : run test_parse_compound_stmt_unsigned_int = snd test_parse_compound_stmt_unsigned_int. Proof. vm_compute. reflexivity. Qed.
(** tests/parser/test_statement.c test_parse_compound_stmt_long *)
Definition test_parse_compound_stmt_long : case :=
  (NStmt, [],
   [TTok LBrace; TTok KwLong; TIdent [120]; TTok Equal; TInt (new_signed ILong 5); TTok Semicolon; TTok KwLong; TTok KwInt; TIdent [121]; TTok Equal; TInt (new_signed ILong 3); TTok Semicolon; TTok KwInt; TTok KwLong; TTok Asterisk; TIdent [122]; TTok Semicolon; TTok Asterisk; TIdent [122]; TTok Equal; TIdent [120]; TTok Plus; TIdent [121]; TTok Semicolon; TTok RBrace; TTok CtEOF],
   Some (new_ast AST_CMPD_STMT [(new_ast AST_DECL [(new_ast AST_DECL_SPECS [(new_ast AST_TYPE_LONG [])]); (new_ast AST_INIT_DECLOR_LIST [(new_ast AST_INIT_DECLOR [(new_identifier_ast AST_IDENT_DECLOR [120]); (new_iliteral_ast AST_INT_EXPR (new_signed ILong 5))])])]); (new_ast AST_DECL [(new_ast AST_DECL_SPECS [(new_ast AST_TYPE_LONG []); (new_ast AST_TYPE_INT [])]); (new_ast AST_INIT_DECLOR_LIST [(new_ast AST_INIT_DECLOR [(new_identifier_ast AST_IDENT_DECLOR [121]); (new_iliteral_ast AST_INT_EXPR (new_signed ILong 3))])])]); (new_ast AST_DECL [(new_ast AST_DECL_SPECS [(new_ast AST_TYPE_INT []); (new_ast AST_TYPE_LONG [])]); (new_ast AST_INIT_DECLOR_LIST [(new_ast AST_INIT_DECLOR [(new_ast AST_PTR_DECLOR [(new_identifier_ast AST_IDENT_DECLOR [122])])])])]); (new_ast AST_EXPR_STMT [(new_ast AST_ASSIGN_EXPR [(new_ast AST_INDIR_EXPR [(new_identifier_ast AST_IDENT_EXPR [122])]); (new_ast AST_ADD_EXPR [(new_identifier_ast AST_IDENT_EXPR [120]); (new_identifier_ast AST_IDENT_EXPR [121])])])])])).
Example test_parse_compound_stmt_long_ok : run test_parse_compound_stmt_long = snd test_parse_compound_stmt_long. Proof. vm_compute. reflexivity. Qed.
(** tests/parser/test_statement.c test_parse_compound_stmt_unsigned_long *)
Definition test_parse_compound_stmt_unsigned_long : case :=
  (NStmt, [],
   [TTok LBrace; TTok KwUnsigned; TTok KwLong; TIdent [120]; TTok Equal; TInt (new_unsigned IULong 6); TTok Semicolon; TTok KwLong; TTok KwUnsigned; TTok KwInt; TIdent [121]; TTok Equal; TInt (new_unsigned IULong 4); TTok Semicolon; TTok KwUnsigned; TTok KwInt; TTok KwLong; TTok Asterisk; TIdent [122]; TTok Semicolon; TTok Asterisk; TIdent [122]; TTok Equal; TIdent [120]; TTok Minus; TIdent [121]; TTok Semicolon; TTok RBrace; TTok CtEOF],
   Some (new_ast AST_CMPD_STMT [(new_ast AST_DECL [(new_ast AST_DECL_SPECS [(new_ast AST_TYPE_UNSIGNED []); (new_ast AST_TYPE_LONG [])]); (new_ast AST_INIT_DECLOR_LIST [(new_ast AST_INIT_DECLOR [(new_identifier_ast AST_IDENT_DECLOR [120]); (new_iliteral_ast AST_INT_EXPR (new_unsigned IULong 6))])])]); (new_ast AST_DECL [(new_ast AST_DECL_SPECS [(new_ast AST_TYPE_LONG []); (new_ast AST_TYPE_UNSIGNED []); (new_ast AST_TYPE_INT [])]); (new_ast AST_INIT_DECLOR_LIST [(new_ast AST_INIT_DECLOR [(new_identifier_ast AST_IDENT_DECLOR [121]); (new_iliteral_ast AST_INT_EXPR (new_unsigned IULong 4))])])]); (new_ast AST_DECL [(new_ast AST_DECL_SPECS [(new_ast AST_TYPE_UNSIGNED []); (new_ast AST_TYPE_INT []); (new_ast AST_TYPE_LONG [])]); (new_ast AST_INIT_DECLOR_LIST [(new_ast AST_INIT_DECLOR [(new_ast AST_PTR_DECLOR [(new_identifier_ast AST_IDENT_DECLOR [122])])])])]); (new_ast AST_EXPR_STMT [(new_ast AST_ASSIGN_EXPR [(new_ast AST_INDIR_EXPR [(new_identifier_ast AST_IDENT_EXPR [122])]); (new_ast AST_SUB_EXPR [(new_identifier_ast AST_IDENT_EXPR [120]); (new_identifier_ast AST_IDENT_EXPR [121])])])])])).
Example test_parse_compound_stmt_unsigned_long_ok : run test_parse_compound_stmt_unsigned_long = snd test_parse_compound_stmt_unsigned_long. Proof. vm_compute. reflexivity. Qed.
(** tests/parser/test_statement.c test_parse_compound_stmt_long_long *)
Definition test_parse_compound_stmt_long_long : case :=
  (NStmt, [],
   [TTok LBrace; TTok KwLong; TTok KwLong; TIdent [120]; TTok Equal; TInt (new_signed ILongLong 7); TTok Semicolon; TTok KwLong; TTok KwLong; TTok KwInt; TIdent [121]; TTok Equal; TInt (new_signed ILongLong 5); TTok Semicolon; TTok KwLong; TTok KwInt; TTok KwLong; TTok Asterisk; TIdent [122]; TTok Semicolon; TTok Asterisk; TIdent [122]; TTok Equal; TIdent [120]; TTok Plus; TIdent [121]; TTok Semicolon; TTok RBrace; TTok CtEOF],
   Some (new_ast AST_CMPD_STMT [(new_ast AST_DECL [(new_ast AST_DECL_SPECS [(new_ast AST_TYPE_LONG []); (new_ast AST_TYPE_LONG [])]); (new_ast AST_INIT_DECLOR_LIST [(new_ast AST_INIT_DECLOR [(new_identifier_ast AST_IDENT_DECLOR [120]); (new_iliteral_ast AST_INT_EXPR (new_signed ILongLong 7))])])]); (new_ast AST_DECL [(new_ast AST_DECL_SPECS [(new_ast AST_TYPE_LONG []); (new_ast AST_TYPE_LONG []); (new_ast AST_TYPE_INT [])]); (new_ast AST_INIT_DECLOR_LIST [(new_ast AST_INIT_DECLOR [(new_identifier_ast AST_IDENT_DECLOR [121]); (new_iliteral_ast AST_INT_EXPR (new_signed ILongLong 5))])])]); (new_ast AST_DECL [(new_ast AST_DECL_SPECS [(new_ast AST_TYPE_LONG []); (new_ast AST_TYPE_INT []); (new_ast AST_TYPE_LONG [])]); (new_ast AST_INIT_DECLOR_LIST [(new_ast AST_INIT_DECLOR [(new_ast AST_PTR_DECLOR [(new_identifier_ast AST_IDENT_DECLOR [122])])])])]); (new_ast AST_EXPR_STMT [(new_ast AST_ASSIGN_EXPR [(new_ast AST_INDIR_EXPR [(new_identifier_ast AST_IDENT_EXPR [122])]); (new_ast AST_ADD_EXPR [(new_identifier_ast AST_IDENT_EXPR [120]); (new_identifier_ast AST_IDENT_EXPR [121])])])])])).
Example test_parse_compound_stmt_long_long_ok : run test_parse_compound_stmt_long_long = snd test_parse_compound_stmt_long_long. Proof. vm_compute. reflexivity. Qed.
(** tests/parser/test_statement.c test_parse_compound_stmt_unsigned_long_long *)
Definition test_parse_compound_stmt_unsigned_long_long : case :=
  (NStmt, [],
   [TTok LBrace; TTok KwUnsigned; TTok KwLong; TTok KwLong; TIdent [120]; TTok Equal; TInt (new_unsigned IULongLong 8); TTok Semicolon; TTok KwLong; TTok KwUnsigned; TTok KwLong; TTok KwInt; TIdent [121]; TTok Equal; TInt (new_unsigned IULongLong 6); TTok Semicolon; TTok KwUnsigned; TTok KwLong; TTok KwLong; TTok KwInt; TTok Asterisk; TIdent [122]; TTok Semicolon; TTok Asterisk; TIdent [122]; TTok Equal; TIdent [120]; TTok Asterisk; TIdent [121]; TTok Semicolon; TTok RBrace; TTok CtEOF],
   Some (new_ast AST_CMPD_STMT [(new_ast AST_DECL [(new_ast AST_DECL_SPECS [(new_ast AST_TYPE_UNSIGNED []); (new_ast AST_TYPE_LONG []); (new_ast AST_TYPE_LONG [])]); (new_ast AST_INIT_DECLOR_LIST [(new_ast AST_INIT_DECLOR [(new_identifier_ast AST_IDENT_DECLOR [120]); (new_iliteral_ast AST_INT_EXPR (new_unsigned IULongLong 8))])])]); (new_ast AST_DECL [(new_ast AST_DECL_SPECS [(new_ast AST_TYPE_LONG []); (new_ast AST_TYPE_UNSIGNED []); (new_ast AST_TYPE_LONG []); (new_ast AST_TYPE_INT [])]); (new_ast AST_INIT_DECLOR_LIST [(new_ast AST_INIT_DECLOR [(new_identifier_ast AST_IDENT_DECLOR [121]); (new_iliteral_ast AST_INT_EXPR (new_unsigned IULongLong 6))])])]); (new_ast AST_DECL [(new_ast AST_DECL_SPECS [(new_ast AST_TYPE_UNSIGNED []); (new_ast AST_TYPE_LONG []); (new_ast AST_TYPE_LONG []); (new_ast AST_TYPE_INT [])]); (new_ast AST_INIT_DECLOR_LIST [(new_ast AST_INIT_DECLOR [(new_ast AST_PTR_DECLOR [(new_identifier_ast AST_IDENT_DECLOR [122])])])])]); (new_ast AST_EXPR_STMT [(new_ast AST_ASSIGN_EXPR [(new_ast AST_INDIR_EXPR [(new_identifier_ast AST_IDENT_EXPR [122])]); (new_ast AST_MUL_EXPR [(new_identifier_ast AST_IDENT_EXPR [120]); (new_identifier_ast AST_IDENT_EXPR [121])])])])])).
Example test_parse_compound_stmt_unsigned_long_long_ok : run test_parse_compound_stmt_unsigned_long_long = snd test_parse_compound_stmt_unsigned_long_long. Proof. vm_compute. reflexivity. Qed.
(** tests/parser/test_statement.c test_parse_compound_stmt_void_pointer *)
Definition test_parse_compound_stmt_void_pointer : case :=
  (NStmt, [],
   [TTok LBrace; TTok KwVoid; TTok Asterisk; TIdent [109; 97; 108; 108; 111; 99]; TTok LParen; TTok KwInt; TIdent [110]; TTok RParen; TTok Semicolon; TTok KwVoid; TIdent [102; 114; 101; 101]; TTok LParen; TTok KwVoid; TTok Asterisk; TIdent [112]; TTok RParen; TTok Semicolon; TTok KwInt; TTok Asterisk; TIdent [120]; TTok Equal; TIdent [109; 97; 108; 108; 111; 99]; TTok LParen; TInt (new_signed IInt 4); TTok RParen; TTok Semicolon; TIdent [102; 114; 101; 101]; TTok LParen; TIdent [120]; TTok RParen; TTok Semicolon; TTok RBrace; TTok CtEOF],
   Some (new_ast AST_CMPD_STMT [(new_ast AST_DECL [(new_ast AST_DECL_SPECS [(new_ast AST_TYPE_VOID [])]); (new_ast AST_INIT_DECLOR_LIST [(new_ast AST_INIT_DECLOR [(new_ast AST_FUNC_DECLOR [(new_ast AST_PTR_DECLOR [(new_identifier_ast AST_IDENT_DECLOR [109; 97; 108; 108; 111; 99])]); (new_ast AST_PARAM_LIST [(new_ast AST_PARAM_DECL [(new_ast AST_DECL_SPECS [(new_ast AST_TYPE_INT [])]); (new_identifier_ast AST_IDENT_DECLOR [110])])])])])])]); (new_ast AST_DECL [(new_ast AST_DECL_SPECS [(new_ast AST_TYPE_VOID [])]); (new_ast AST_INIT_DECLOR_LIST [(new_ast AST_INIT_DECLOR [(new_ast AST_FUNC_DECLOR [(new_identifier_ast AST_IDENT_DECLOR [102; 114; 101; 101]); (new_ast AST_PARAM_LIST [(new_ast AST_PARAM_DECL [(new_ast AST_DECL_SPECS [(new_ast AST_TYPE_VOID [])]); (new_ast AST_PTR_DECLOR [(new_identifier_ast AST_IDENT_DECLOR [112])])])])])])])]); (new_ast AST_DECL [(new_ast AST_DECL_SPECS [(new_ast AST_TYPE_INT [])]); (new_ast AST_INIT_DECLOR_LIST [(new_ast AST_INIT_DECLOR [(new_ast AST_PTR_DECLOR [(new_identifier_ast AST_IDENT_DECLOR [120])]); (new_ast AST_CALL_EXPR [(new_identifier_ast AST_IDENT_EXPR [109; 97; 108; 108; 111; 99]); (new_ast AST_ARG_LIST [(new_iliteral_ast AST_INT_EXPR (new_signed IInt 4))])])])])]); (new_ast AST_EXPR_STMT [(new_ast AST_CALL_EXPR [(new_identifier_ast AST_IDENT_EXPR [102; 114; 101; 101]); (new_ast AST_ARG_LIST [(new_identifier_ast AST_IDENT_EXPR [120])])])])])).
Example test_parse_compound_stmt_void_pointer_ok : run test_parse_compound_stmt_void_pointer = snd test_parse_compound_stmt_void_pointer. Proof. vm_compute. reflexivity. Qed.
(** tests/parser/test_statement.c test_parse_compound_stmt_empty *)
Definition test_parse_compound_stmt_empty : case :=
  (NStmt, [],
   [TTok LBrace; TTok RBrace; TTok CtEOF],
   Some (new_ast AST_CMPD_STMT [])).
Example test_parse_compound_stmt_empty_ok : run test_parse_compound_stmt_empty = snd test_parse_compound_stmt_empty. Proof. vm_compute. reflexivity. Qed.
(** tests/parser/test_statement.c test_parse_continue_stmt *)
Definition test_parse_continue_stmt : case :=
  (NStmt, [],
   [TTok KwFor; TTok LParen; TIdent [105]; TTok Equal; TInt (new_signed IInt 0); TTok Semicolon; TIdent [105]; TTok Less; TInt (new_signed IInt 10); TTok Semicolon; TIdent [105]; TTok PlusPlus; TTok RParen; TTok LBrace; TTok KwIf; TTok LParen; TIdent [105]; TTok EqualEqual; TInt (new_signed IInt 5); TTok RParen; TTok KwContinue; TTok Semicolon; TIdent [112; 117; 116; 95; 105; 110; 116]; TTok LParen; TIdent [105]; TTok RParen; TTok Semicolon; TTok RBrace; TTok CtEOF],
   Some (new_ast AST_FOR_STMT [(new_ast AST_EXPR_STMT [(new_ast AST_ASSIGN_EXPR [(new_identifier_ast AST_IDENT_EXPR [105]); (new_iliteral_ast AST_INT_EXPR (new_signed IInt 0))])]); (new_ast AST_EXPR_STMT [(new_ast AST_LESS_EXPR [(new_identifier_ast AST_IDENT_EXPR [105]); (new_iliteral_ast AST_INT_EXPR (new_signed IInt 10))])]); (new_ast AST_EXPR_STMT [(new_ast AST_POSTINC_EXPR [(new_identifier_ast AST_IDENT_EXPR [105])])]); (new_ast AST_CMPD_STMT [(new_ast AST_IF_STMT [(new_ast AST_EQUAL_EXPR [(new_identifier_ast AST_IDENT_EXPR [105]); (new_iliteral_ast AST_INT_EXPR (new_signed IInt 5))]); (new_ast AST_CONTINUE_STMT [])]); (new_ast AST_EXPR_STMT [(new_ast AST_CALL_EXPR [(new_identifier_ast AST_IDENT_EXPR [112; 117; 116; 95; 105; 110; 116]); (new_ast AST_ARG_LIST [(new_identifier_ast AST_IDENT_EXPR [105])])])])])])).
Example test_parse_continue_stmt_ok : run test_parse_continue_stmt = snd test_parse_continue_stmt. Proof. vm_compute. reflexivity. Qed.
(** tests/parser/test_statement.c test_parse_break_stmt *)
Definition test_parse_break_stmt : case :=
  (NStmt, [],
   [TTok KwWhile; TTok LParen; TInt (new_signed IInt 1); TTok RParen; TTok LBrace; TTok KwIf; TTok LParen; TIdent [105]; TTok EqualEqual; TInt (new_signed IInt 5); TTok RParen; TTok KwBreak; TTok Semicolon; TIdent [105]; TTok PlusPlus; TTok Semicolon; TTok RBrace; TTok CtEOF],
   Some (new_ast AST_WHILE_STMT [(new_iliteral_ast AST_INT_EXPR (new_signed IInt 1)); (new_ast AST_CMPD_STMT [(new_ast AST_IF_STMT [(new_ast AST_EQUAL_EXPR [(new_identifier_ast AST_IDENT_EXPR [105]); (new_iliteral_ast AST_INT_EXPR (new_signed IInt 5))]); (new_ast AST_BREAK_STMT [])]); (new_ast AST_EXPR_STMT [(new_ast AST_POSTINC_EXPR [(new_identifier_ast AST_IDENT_EXPR [105])])])])])).
Example test_parse_break_stmt_ok : run test_parse_break_stmt = snd test_parse_break_stmt. Proof. vm_compute. reflexivity. Qed.
(** tests/parser/test_statement.c test_parse_return_stmt_non_void *)
Definition test_parse_return_stmt_non_void : case :=
  (NStmt, [],
   [TTok KwReturn; TInt (new_signed IInt 0); TTok Semicolon; TTok CtEOF],
   Some (new_ast AST_RET_STMT [(new_iliteral_ast AST_INT_EXPR (new_signed IInt 0))])).
Example test_parse_return_stmt_non_void_ok : run test_parse_return_stmt_non_void = snd test_parse_return_stmt_non_void. Proof. vm_compute. reflexivity. Qed.
(** tests/parser/test_statement.c test_parse_return_stmt_void *)
Definition test_parse_return_stmt_void : case :=
  (NStmt, [],
   [TTok KwReturn; TTok Semicolon; TTok CtEOF],
   Some (new_ast AST_RET_STMT [])).
Example test_parse_return_stmt_void_ok : run test_parse_return_stmt_void = snd test_parse_return_stmt_void. Proof. vm_compute. reflexivity. Qed.
(** tests/parser/test_statement.c test_parse_expression_stmt *)
Definition test_parse_expression_stmt : case :=
  (NStmt, [],
   [TIdent [120]; TTok Equal; TInt (new_signed IInt 12); TTok Semicolon; TTok CtEOF],
   Some (new_ast AST_EXPR_STMT [(new_ast AST_ASSIGN_EXPR [(new_identifier_ast AST_IDENT_EXPR [120]); (new_iliteral_ast AST_INT_EXPR (new_signed IInt 12))])])).
Example test_parse_expression_stmt_ok : run test_parse_expression_stmt = snd test_parse_expression_stmt. Proof. vm_compute. reflexivity. Qed.
(** tests/parser/test_statement.c test_parse_null_stmt *)
Definition test_parse_null_stmt : case :=
  (NStmt, [],
   [TTok Semicolon; TTok CtEOF],
   Some (new_ast AST_NULL_STMT [])).
Example test_parse_null_stmt_ok : run test_parse_null_stmt = snd test_parse_null_stmt. Proof. vm_compute. reflexivity. Qed.
(** tests/parser/test_statement.c test_parse_if_stmt *)
Definition test_parse_if_stmt : case :=
  (NStmt, [],
   [TTok LBrace; TTok KwIf; TTok LParen; TIdent [120]; TTok EqualEqual; TInt (new_signed IInt 0); TTok RParen; TIdent [121]; TTok Equal; TInt (new_signed IInt 1); TTok Semicolon; TIdent [121]; TTok Equal; TInt (new_signed IInt 2); TTok Semicolon; TTok RBrace; TTok CtEOF],
   Some (new_ast AST_CMPD_STMT [(new_ast AST_IF_STMT [(new_ast AST_EQUAL_EXPR [(new_identifier_ast AST_IDENT_EXPR [120]); (new_iliteral_ast AST_INT_EXPR (new_signed IInt 0))]); (new_ast AST_EXPR_STMT [(new_ast AST_ASSIGN_EXPR [(new_identifier_ast AST_IDENT_EXPR [121]); (new_iliteral_ast AST_INT_EXPR (new_signed IInt 1))])])]); (new_ast AST_EXPR_STMT [(new_ast AST_ASSIGN_EXPR [(new_identifier_ast AST_IDENT_EXPR [121]); (new_iliteral_ast AST_INT_EXPR (new_signed IInt 2))])])])).
Example test_parse_if_stmt_ok : run test_parse_if_stmt = snd test_parse_if_stmt. Proof. vm_compute. reflexivity. Qed.
(** tests/parser/test_statement.c test_parse_if_else_stmt *)
Definition test_parse_if_else_stmt : case :=
  (NStmt, [],
   [TTok LBrace; TTok KwIf; TTok LParen; TIdent [120]; TTok EqualEqual; TInt (new_signed IInt 0); TTok RParen; TTok LBrace; TIdent [121]; TTok Equal; TInt (new_signed IInt 1); TTok Semicolon; TTok RBrace; TTok KwElse; TTok LBrace; TIdent [121]; TTok Equal; TInt (new_signed IInt 2); TTok Semicolon; TTok RBrace; TTok RBrace; TTok CtEOF],
   Some (new_ast AST_CMPD_STMT [(new_ast AST_IF_STMT [(new_ast AST_EQUAL_EXPR [(new_identifier_ast AST_IDENT_EXPR [120]); (new_iliteral_ast AST_INT_EXPR (new_signed IInt 0))]); (new_ast AST_CMPD_STMT [(new_ast AST_EXPR_STMT [(new_ast AST_ASSIGN_EXPR [(new_identifier_ast AST_IDENT_EXPR [121]); (new_iliteral_ast AST_INT_EXPR (new_signed IInt 1))])])]); (new_ast AST_CMPD_STMT [(new_ast AST_EXPR_STMT [(new_ast AST_ASSIGN_EXPR [(new_identifier_ast AST_IDENT_EXPR [121]); (new_iliteral_ast AST_INT_EXPR (new_signed IInt 2))])])])])])).
Example test_parse_if_else_stmt_ok : run test_parse_if_else_stmt = snd test_parse_if_else_stmt. Proof. vm_compute. reflexivity. Qed.
(** tests/parser/test_statement.c test_parse_if_else_stmt_chain *)
Definition test_parse_if_else_stmt_chain : case :=
  (NStmt, [],
   [TTok KwIf; TTok LParen; TIdent [120]; TTok Less; TInt (new_signed IInt 0); TTok RParen; TTok LBrace; TIdent [121]; TTok Equal; TTok Minus; TIdent [120]; TTok Semicolon; TTok RBrace; TTok KwElse; TTok KwIf; TTok LParen; TIdent [120]; TTok Greater; TInt (new_signed IInt 0); TTok RParen; TTok LBrace; TIdent [121]; TTok Equal; TIdent [120]; TTok Semicolon; TTok RBrace; TTok KwElse; TTok LBrace; TIdent [121]; TTok Equal; TInt (new_signed IInt 0); TTok Semicolon; TTok RBrace; TTok CtEOF],
   Some (new_ast AST_IF_STMT [(new_ast AST_LESS_EXPR [(new_identifier_ast AST_IDENT_EXPR [120]); (new_iliteral_ast AST_INT_EXPR (new_signed IInt 0))]); (new_ast AST_CMPD_STMT [(new_ast AST_EXPR_STMT [(new_ast AST_ASSIGN_EXPR [(new_identifier_ast AST_IDENT_EXPR [121]); (new_ast AST_NEG_EXPR [(new_identifier_ast AST_IDENT_EXPR [120])])])])]); (new_ast AST_IF_STMT [(new_ast AST_GREATER_EXPR [(new_identifier_ast AST_IDENT_EXPR [120]); (new_iliteral_ast AST_INT_EXPR (new_signed IInt 0))]); (new_ast AST_CMPD_STMT [(new_ast AST_EXPR_STMT [(new_ast AST_ASSIGN_EXPR [(new_identifier_ast AST_IDENT_EXPR [121]); (new_identifier_ast AST_IDENT_EXPR [120])])])]); (new_ast AST_CMPD_STMT [(new_ast AST_EXPR_STMT [(new_ast AST_ASSIGN_EXPR [(new_identifier_ast AST_IDENT_EXPR [121]); (new_iliteral_ast AST_INT_EXPR (new_signed IInt 0))])])])])])).
Example test_parse_if_else_stmt_chain_ok : run test_parse_if_else_stmt_chain = snd test_parse_if_else_stmt_chain. Proof. vm_compute. reflexivity. Qed.
(** tests/parser/test_statement.c test_parse_switch_stmt *)
Definition test_parse_switch_stmt : case :=
  (NStmt, [],
   [TTok KwSwitch; TTok LParen; TIdent [120]; TTok RParen; TTok LBrace; TTok KwCase; TInt (new_signed IInt 0); TTok Colon; TIdent [121]; TTok Equal; TChar (new_signed IInt 43); TTok Semicolon; TTok KwBreak; TTok Semicolon; TTok KwCase; TInt (new_signed IInt 1); TTok Colon; TIdent [121]; TTok Equal; TChar (new_signed IInt 45); TTok Semicolon; TTok KwBreak; TTok Semicolon; TTok KwDefault; TTok Colon; TIdent [121]; TTok Equal; TChar (new_signed IInt 42); TTok Semicolon; TTok KwBreak; TTok Semicolon; TTok RBrace; TTok CtEOF],
   Some (new_ast AST_SWITCH_STMT [(new_identifier_ast AST_IDENT_EXPR [120]); (new_ast AST_CMPD_STMT [(new_ast AST_CASE_STMT [(new_iliteral_ast AST_INT_EXPR (new_signed IInt 0)); (new_ast AST_EXPR_STMT [(new_ast AST_ASSIGN_EXPR [(new_identifier_ast AST_IDENT_EXPR [121]); (new_iliteral_ast AST_CHAR_EXPR (new_signed IInt 43))])])]); (new_ast AST_BREAK_STMT []); (new_ast AST_CASE_STMT [(new_iliteral_ast AST_INT_EXPR (new_signed IInt 1)); (new_ast AST_EXPR_STMT [(new_ast AST_ASSIGN_EXPR [(new_identifier_ast AST_IDENT_EXPR [121]); (new_iliteral_ast AST_CHAR_EXPR (new_signed IInt 45))])])]); (new_ast AST_BREAK_STMT []); (new_ast AST_DEFAULT_STMT [(new_ast AST_EXPR_STMT [(new_ast AST_ASSIGN_EXPR [(new_identifier_ast AST_IDENT_EXPR [121]); (new_iliteral_ast AST_CHAR_EXPR (new_signed IInt 42))])])]); (new_ast AST_BREAK_STMT [])])])).
Example test_parse_switch_stmt_ok : run test_parse_switch_stmt = snd test_parse_switch_stmt. Proof. vm_compute. reflexivity. Qed.
(** tests/parser/test_statement.c test_parse_while_stmt *)
Definition test_parse_while_stmt : case :=
  (NStmt, [],
   [TTok KwWhile; TTok LParen; TIdent [120]; TTok Less; TInt (new_signed IInt 10); TTok RParen; TTok LBrace; TIdent [120]; TTok Equal; TIdent [120]; TTok Plus; TInt (new_signed IInt 1); TTok Semicolon; TIdent [121]; TTok Equal; TInt (new_signed IInt 2); TTok Asterisk; TIdent [121]; TTok Semicolon; TTok RBrace; TTok CtEOF],
   Some (new_ast AST_WHILE_STMT [(new_ast AST_LESS_EXPR [(new_identifier_ast AST_IDENT_EXPR [120]); (new_iliteral_ast AST_INT_EXPR (new_signed IInt 10))]); (new_ast AST_CMPD_STMT [(new_ast AST_EXPR_STMT [(new_ast AST_ASSIGN_EXPR [(new_identifier_ast AST_IDENT_EXPR [120]); (new_ast AST_ADD_EXPR [(new_identifier_ast AST_IDENT_EXPR [120]); (new_iliteral_ast AST_INT_EXPR (new_signed IInt 1))])])]); (new_ast AST_EXPR_STMT [(new_ast AST_ASSIGN_EXPR [(new_identifier_ast AST_IDENT_EXPR [121]); (new_ast AST_MUL_EXPR [(new_iliteral_ast AST_INT_EXPR (new_signed IInt 2)); (new_identifier_ast AST_IDENT_EXPR [121])])])])])])).
Example test_parse_while_stmt_ok : run test_parse_while_stmt = snd test_parse_while_stmt. Proof. vm_compute. reflexivity. Qed.
(** tests/parser/test_statement.c test_parse_for_stmt_init_declaration *)
Definition test_parse_for_stmt_init_declaration : case :=
  (NStmt, [],
   [TTok KwFor; TTok LParen; TTok KwInt; TIdent [105]; TTok Equal; TInt (new_signed IInt 0); TTok Semicolon; TIdent [105]; TTok Less; TInt (new_signed IInt 10); TTok Semicolon; TIdent [105]; TTok PlusPlus; TTok RParen; TTok LBrace; TIdent [120]; TTok AsteriskEqual; TInt (new_signed IInt 2); TTok Semicolon; TTok RBrace; TTok CtEOF],
   Some (new_ast AST_FOR_STMT [(new_ast AST_DECL [(new_ast AST_DECL_SPECS [(new_ast AST_TYPE_INT [])]); (new_ast AST_INIT_DECLOR_LIST [(new_ast AST_INIT_DECLOR [(new_identifier_ast AST_IDENT_DECLOR [105]); (new_iliteral_ast AST_INT_EXPR (new_signed IInt 0))])])]); (new_ast AST_EXPR_STMT [(new_ast AST_LESS_EXPR [(new_identifier_ast AST_IDENT_EXPR [105]); (new_iliteral_ast AST_INT_EXPR (new_signed IInt 10))])]); (new_ast AST_EXPR_STMT [(new_ast AST_POSTINC_EXPR [(new_identifier_ast AST_IDENT_EXPR [105])])]); (new_ast AST_CMPD_STMT [(new_ast AST_EXPR_STMT [(new_ast AST_MUL_ASSIGN_EXPR [(new_identifier_ast AST_IDENT_EXPR [120]); (new_iliteral_ast AST_INT_EXPR (new_signed IInt 2))])])])])).
Example test_parse_for_stmt_init_declaration_ok : run test_parse_for_stmt_init_declaration = snd test_parse_for_stmt_init_declaration. Proof. vm_compute. reflexivity. Qed.
(** tests/parser/test_statement.c test_parse_for_stmt_init_expression *)
Definition test_parse_for_stmt_init_expression : case :=
  (NStmt, [],
   [TTok KwFor; TTok LParen; TIdent [105]; TTok Equal; TIdent [110]; TTok Semicolon; TIdent [105]; TTok Greater; TInt (new_signed IInt 0); TTok Semicolon; TIdent [105]; TTok MinusMinus; TTok RParen; TTok LBrace; TIdent [120]; TTok SlashEqual; TInt (new_signed IInt 2); TTok Semicolon; TTok RBrace; TTok CtEOF],
   Some (new_ast AST_FOR_STMT [(new_ast AST_EXPR_STMT [(new_ast AST_ASSIGN_EXPR [(new_identifier_ast AST_IDENT_EXPR [105]); (new_identifier_ast AST_IDENT_EXPR [110])])]); (new_ast AST_EXPR_STMT [(new_ast AST_GREATER_EXPR [(new_identifier_ast AST_IDENT_EXPR [105]); (new_iliteral_ast AST_INT_EXPR (new_signed IInt 0))])]); (new_ast AST_EXPR_STMT [(new_ast AST_POSTDEC_EXPR [(new_identifier_ast AST_IDENT_EXPR [105])])]); (new_ast AST_CMPD_STMT [(new_ast AST_EXPR_STMT [(new_ast AST_DIV_ASSIGN_EXPR [(new_identifier_ast AST_IDENT_EXPR [120]); (new_iliteral_ast AST_INT_EXPR (new_signed IInt 2))])])])])).
Example test_parse_for_stmt_init_expression_ok : run test_parse_for_stmt_init_expression = snd test_parse_for_stmt_init_expression. Proof. vm_compute. reflexivity. Qed.
(** tests/parser/test_statement.c test_parse_for_stmt_init_null *)
Definition test_parse_for_stmt_init_null : case :=
  (NStmt, [],
   [TTok KwFor; TTok LParen; TTok Semicolon; TIdent [105]; TTok Less; TInt (new_signed IInt 10); TTok Semicolon; TIdent [105]; TTok PlusPlus; TTok RParen; TTok LBrace; TTok RBrace; TTok CtEOF],
   Some (new_ast AST_FOR_STMT [(new_ast AST_NULL_STMT []); (new_ast AST_EXPR_STMT [(new_ast AST_LESS_EXPR [(new_identifier_ast AST_IDENT_EXPR [105]); (new_iliteral_ast AST_INT_EXPR (new_signed IInt 10))])]); (new_ast AST_EXPR_STMT [(new_ast AST_POSTINC_EXPR [(new_identifier_ast AST_IDENT_EXPR [105])])]); (new_ast AST_CMPD_STMT [])])).
Example test_parse_for_stmt_init_null_ok : run test_parse_for_stmt_init_null = snd test_parse_for_stmt_init_null. Proof. vm_compute. reflexivity. Qed.
(** tests/parser/test_statement.c test_parse_for_stmt_condition_null *)
Definition test_parse_for_stmt_condition_null : case :=
  (NStmt, [],
   [TTok KwFor; TTok LParen; TIdent [105]; TTok Equal; TInt (new_signed IInt 0); TTok Semicolon; TTok Semicolon; TIdent [105]; TTok PlusPlus; TTok RParen; TTok LBrace; TTok RBrace; TTok CtEOF],
   Some (new_ast AST_FOR_STMT [(new_ast AST_EXPR_STMT [(new_ast AST_ASSIGN_EXPR [(new_identifier_ast AST_IDENT_EXPR [105]); (new_iliteral_ast AST_INT_EXPR (new_signed IInt 0))])]); (new_ast AST_NULL_STMT []); (new_ast AST_EXPR_STMT [(new_ast AST_POSTINC_EXPR [(new_identifier_ast AST_IDENT_EXPR [105])])]); (new_ast AST_CMPD_STMT [])])).
Example test_parse_for_stmt_condition_null_ok : run test_parse_for_stmt_condition_null = snd test_parse_for_stmt_condition_null. Proof. vm_compute. reflexivity. Qed.
(** tests/parser/test_statement.c test_parse_for_stmt_expression_null *)
Definition test_parse_for_stmt_expression_null : case :=
  (NStmt, [],
   [TTok KwFor; TTok LParen; TIdent [105]; TTok Equal; TInt (new_signed IInt 0); TTok Semicolon; TIdent [105]; TTok Less; TInt (new_signed IInt 10); TTok Semicolon; TTok RParen; TTok LBrace; TTok RBrace; TTok CtEOF],
   Some (new_ast AST_FOR_STMT [(new_ast AST_EXPR_STMT [(new_ast AST_ASSIGN_EXPR [(new_identifier_ast AST_IDENT_EXPR [105]); (new_iliteral_ast AST_INT_EXPR (new_signed IInt 0))])]); (new_ast AST_EXPR_STMT [(new_ast AST_LESS_EXPR [(new_identifier_ast AST_IDENT_EXPR [105]); (new_iliteral_ast AST_INT_EXPR (new_signed IInt 10))])]); (new_ast AST_NULL_STMT []); (new_ast AST_CMPD_STMT [])])).
Example test_parse_for_stmt_expression_null_ok : run test_parse_for_stmt_expression_null = snd test_parse_for_stmt_expression_null. Proof. vm_compute. reflexivity. Qed.
(** tests/parser/test_statement.c test_parse_for_stmt_all_null *)
Definition test_parse_for_stmt_all_null : case :=
  (NStmt, [],
   [TTok KwFor; TTok LParen; TTok Semicolon; TTok Semicolon; TTok RParen; TTok LBrace; TTok RBrace; TTok CtEOF],
   Some (new_ast AST_FOR_STMT [(new_ast AST_NULL_STMT []); (new_ast AST_NULL_STMT []); (new_ast AST_NULL_STMT []); (new_ast AST_CMPD_STMT [])])).
Example test_parse_for_stmt_all_null_ok : run test_parse_for_stmt_all_null = snd test_parse_for_stmt_all_null. Proof. vm_compute. reflexivity. Qed.
(** tests/parser/test_statement_error.c test_parse_case_stmt_error_expr *)
Definition test_parse_case_stmt_error_expr : case :=
  (NStmt, [],
   [TTok KwCase; TTok Colon; TTok KwBreak; TTok Semicolon; TTok CtEOF],
   None).
Example test_parse_case_stmt_error_expr_ok : errs test_parse_case_stmt_error_expr = true. Proof. vm_compute. reflexivity. Qed.
(** tests/parser/test_statement_error.c test_parse_case_stmt_error_colon *)
Definition test_parse_case_stmt_error_colon : case :=
  (NStmt, [],
   [TTok KwCase; TInt (new_signed IInt 1); TTok Semicolon; TTok CtEOF],
   None).
Example test_parse_case_stmt_error_colon_ok : errs test_parse_case_stmt_error_colon = true. Proof. vm_compute. reflexivity. Qed.
(** tests/parser/test_statement_error.c test_parse_case_stmt_error_statement *)
Definition test_parse_case_stmt_error_statement : case :=
  (NStmt, [],
   [TTok KwCase; TInt (new_signed IInt 1); TTok Colon; TTok CtEOF],
   None).
Example test_parse_case_stmt_error_statement_ok : errs test_parse_case_stmt_error_statement = true. Proof. vm_compute. reflexivity. Qed.
(** tests/parser/test_statement_error.c test_parse_default_stmt_error_colon *)
Definition test_parse_default_stmt_error_colon : case :=
  (NStmt, [],
   [TTok KwDefault; TTok Semicolon; TTok CtEOF],
   None).
Example test_parse_default_stmt_error_colon_ok : errs test_parse_default_stmt_error_colon = true. Proof. vm_compute. reflexivity. Qed.
(** tests/parser/test_statement_error.c test_parse_default_stmt_error_statement *)
Definition test_parse_default_stmt_error_statement : case :=
  (NStmt, [],
   [TTok KwDefault; TTok Colon; TTok CtEOF],
   None).
Example test_parse_default_stmt_error_statement_ok : errs test_parse_default_stmt_error_statement = true. Proof. vm_compute. reflexivity. Qed.
(** tests/parser/test_statement_error.c test_parse_compound_stmt_error_child *)
Definition test_parse_compound_stmt_error_child : case :=
  (NStmt, [],
   [TTok LBrace; TTok KwInt; TIdent [120]; TTok Semicolon; TIdent [120]; TTok Equal; TInt (new_signed IInt 1); TInt (new_signed IInt 0); TTok Semicolon; TTok CtEOF],
   None).
Example test_parse_compound_stmt_error_child_ok : errs test_parse_compound_stmt_error_child = true. Proof. vm_compute. reflexivity. Qed.
(** tests/parser/test_statement_error.c test_parse_compound_stmt_error_braces *)
Definition test_parse_compound_stmt_error_braces : case :=
  (NStmt, [],
   [TTok LBrace; TTok KwInt; TIdent [120]; TTok Semicolon; TIdent [120]; TTok Equal; TInt (new_signed IInt 2); TTok Semicolon; TTok CtEOF],
   None).
Example test_parse_compound_stmt_error_braces_ok : errs test_parse_compound_stmt_error_braces = true. Proof. vm_compute. reflexivity. Qed.
(** tests/parser/test_statement_error.c test_parse_return_stmt_error_expr *)
Definition test_parse_return_stmt_error_expr : case :=
  (NStmt, [],
   [TTok KwReturn; TTok LParen; TTok RParen; TTok Semicolon; TTok CtEOF],
   None).
Example test_parse_return_stmt_error_expr_ok : errs test_parse_return_stmt_error_expr = true. Proof. vm_compute. reflexivity. Qed.
(** tests/parser/test_statement_error.c test_parse_return_stmt_error_semicolon *)
Definition test_parse_return_stmt_error_semicolon : case :=
  (NStmt, [],
   [TTok KwReturn; TIdent [114; 101; 116]; TInt (new_signed IInt 0); TTok Semicolon; TTok CtEOF],
   None).
Example test_parse_return_stmt_error_semicolon_ok : errs test_parse_return_stmt_error_semicolon = true. Proof. vm_compute. reflexivity. Qed.
(** tests/parser/test_statement_error.c test_parse_continue_stmt_error *)
Definition test_parse_continue_stmt_error : case :=
  (NStmt, [],
   [TTok KwContinue; TIdent [76; 48]; TTok Semicolon; TTok CtEOF],
   None).
Example test_parse_continue_stmt_error_ok : errs test_parse_continue_stmt_error = true. Proof. vm_compute. reflexivity. Qed.
(** tests/parser/test_statement_error.c test_parse_break_stmt_error *)
Definition test_parse_break_stmt_error : case :=
  (NStmt, [],
   [TTok KwBreak; TIdent [76; 48]; TTok Semicolon; TTok CtEOF],
   None).
Example test_parse_break_stmt_error_ok : errs test_parse_break_stmt_error = true. Proof. vm_compute. reflexivity. Qed.
(** tests/parser/test_statement_error.c test_parse_expression_stmt_error *)
Definition test_parse_expression_stmt_error : case :=
  (NStmt, [],
   [TIdent [120]; TTok Equal; TInt (new_signed IInt 0); TIdent [121]; TTok Semicolon; TTok CtEOF],
   None).
Example test_parse_expression_stmt_error_ok : errs test_parse_expression_stmt_error = true. Proof. vm_compute. reflexivity. Qed.
(** tests/parser/test_statement_error.c test_parse_if_else_stmt_error_controlling_lparen *)
Definition test_parse_if_else_stmt_error_controlling_lparen : case :=
  (NStmt, [],
   [TTok KwIf; TIdent [120]; TTok GreaterEqual; TInt (new_signed IInt 0); TTok LBrace; TTok RBrace; TTok CtEOF],
   None).
Example test_parse_if_else_stmt_error_controlling_lparen_ok : errs test_parse_if_else_stmt_error_controlling_lparen = true. Proof. vm_compute. reflexivity. Qed.
(** tests/parser/test_statement_error.c test_parse_if_else_stmt_error_controlling_expr *)
Definition test_parse_if_else_stmt_error_controlling_expr : case :=
  (NStmt, [],
   [TTok KwIf; TTok LParen; TTok EqualEqual; TTok RParen; TTok LBrace; TTok RBrace; TTok CtEOF],
   None).
Example test_parse_if_else_stmt_error_controlling_expr_ok : errs test_parse_if_else_stmt_error_controlling_expr = true. Proof. vm_compute. reflexivity. Qed.
(** tests/parser/test_statement_error.c test_parse_if_else_stmt_error_controlling_rparen *)
Definition test_parse_if_else_stmt_error_controlling_rparen : case :=
  (NStmt, [],
   [TTok KwIf; TTok LParen; TIdent [120]; TTok GreaterEqual; TInt (new_signed IInt 0); TTok LBrace; TTok RBrace; TTok CtEOF],
   None).
Example test_parse_if_else_stmt_error_controlling_rparen_ok : errs test_parse_if_else_stmt_error_controlling_rparen = true. Proof. vm_compute. reflexivity. Qed.
(** tests/parser/test_statement_error.c test_parse_if_else_stmt_error_then_stmt *)
Definition test_parse_if_else_stmt_error_then_stmt : case :=
  (NStmt, [],
   [TTok KwIf; TTok LParen; TIdent [120]; TTok GreaterEqual; TInt (new_signed IInt 0); TTok RParen; TTok KwElse; TTok CtEOF],
   None).
Example test_parse_if_else_stmt_error_then_stmt_ok : errs test_parse_if_else_stmt_error_then_stmt = true. Proof. vm_compute. reflexivity. Qed.
(** tests/parser/test_statement_error.c test_parse_if_else_stmt_error_else_stmt *)
Definition test_parse_if_else_stmt_error_else_stmt : case :=
  (NStmt, [],
   [TTok KwIf; TTok LParen; TIdent [120]; TTok GreaterEqual; TInt (new_signed IInt 0); TTok RParen; TTok LBrace; TTok RBrace; TTok KwElse; TTok CtEOF],
   None).
Example test_parse_if_else_stmt_error_else_stmt_ok : errs test_parse_if_else_stmt_error_else_stmt = true. Proof. vm_compute. reflexivity. Qed.
(** tests/parser/test_statement_error.c test_parse_switch_stmt_error_controlling_lparen *)
Definition test_parse_switch_stmt_error_controlling_lparen : case :=
  (NStmt, [],
   [TTok KwSwitch; TIdent [120]; TTok LBrace; TTok KwCase; TInt (new_signed IInt 0); TTok Colon; TTok Semicolon; TTok RBrace; TTok CtEOF],
   None).
Example test_parse_switch_stmt_error_controlling_lparen_ok : errs test_parse_switch_stmt_error_controlling_lparen = true. Proof. vm_compute. reflexivity. Qed.
(** tests/parser/test_statement_error.c test_parse_switch_stmt_error_controlling_expr *)
Definition test_parse_switch_stmt_error_controlling_expr : case :=
  (NStmt, [],
   [TTok KwSwitch; TTok LParen; TTok RParen; TTok LBrace; TTok KwCase; TInt (new_signed IInt 0); TTok Colon; TTok Semicolon; TTok RBrace; TTok CtEOF],
   None).
Example test_parse_switch_stmt_error_controlling_expr_ok : errs test_parse_switch_stmt_error_controlling_expr = true. Proof. vm_compute. reflexivity. Qed.
(** tests/parser/test_statement_error.c test_parse_switch_stmt_error_controlling_rparen *)
Definition test_parse_switch_stmt_error_controlling_rparen : case :=
  (NStmt, [],
   [TTok KwSwitch; TTok LParen; TIdent [120]; TTok LBrace; TTok KwCase; TInt (new_signed IInt 0); TTok Colon; TTok Semicolon; TTok RBrace; TTok CtEOF],
   None).
Example test_parse_switch_stmt_error_controlling_rparen_ok : errs test_parse_switch_stmt_error_controlling_rparen = true. Proof. vm_compute. reflexivity. Qed.
(** tests/parser/test_statement_error.c test_parse_switch_stmt_error_body *)
Definition test_parse_switch_stmt_error_body : case :=
  (NStmt, [],
   [TTok KwSwitch; TTok LParen; TIdent [120]; TTok RParen; TTok CtEOF],
   None).
Example test_parse_switch_stmt_error_body_ok : errs test_parse_switch_stmt_error_body = true. Proof. vm_compute. reflexivity. Qed.
(** tests/parser/test_statement_error.c test_parse_while_stmt_error_controlling_lparen *)
Definition test_parse_while_stmt_error_controlling_lparen : case :=
  (NStmt, [],
   [TTok KwWhile; TIdent [120]; TTok GreaterEqual; TInt (new_signed IInt 0); TTok LBrace; TTok RBrace; TTok CtEOF],
   None).
Example test_parse_while_stmt_error_controlling_lparen_ok : errs test_parse_while_stmt_error_controlling_lparen = true. Proof. vm_compute. reflexivity. Qed.
(** tests/parser/test_statement_error.c test_parse_while_stmt_error_controlling_expr *)
Definition test_parse_while_stmt_error_controlling_expr : case :=
  (NStmt, [],
   [TTok KwWhile; TTok LParen; TTok EqualEqual; TTok RParen; TTok LBrace; TTok RBrace; TTok CtEOF],
   None).
Example test_parse_while_stmt_error_controlling_expr_ok : errs test_parse_while_stmt_error_controlling_expr = true. Proof. vm_compute. reflexivity. Qed.
(** tests/parser/test_statement_error.c test_parse_while_stmt_error_controlling_rparen *)
Definition test_parse_while_stmt_error_controlling_rparen : case :=
  (NStmt, [],
   [TTok KwWhile; TTok LParen; TIdent [120]; TTok GreaterEqual; TInt (new_signed IInt 0); TTok LBrace; TTok RBrace; TTok CtEOF],
   None).
Example test_parse_while_stmt_error_controlling_rparen_ok : errs test_parse_while_stmt_error_controlling_rparen = true. Proof. vm_compute. reflexivity. Qed.
(** tests/parser/test_statement_error.c test_parse_while_stmt_error_body *)
Definition test_parse_while_stmt_error_body : case :=
  (NStmt, [],
   [TTok KwWhile; TTok LParen; TIdent [120]; TTok GreaterEqual; TInt (new_signed IInt 0); TTok RParen; TTok CtEOF],
   None).
Example test_parse_while_stmt_error_body_ok : errs test_parse_while_stmt_error_body = true. Proof. vm_compute. reflexivity. Qed.
(** tests/parser/test_statement_error.c test_parse_for_stmt_error_lparen *)
Definition test_parse_for_stmt_error_lparen : case :=
  (NStmt, [],
   [TTok KwFor; TTok KwInt; TIdent [120]; TTok Equal; TInt (new_signed IInt 0); TTok Semicolon; TTok Semicolon; TTok RParen; TTok LBrace; TTok RBrace; TTok CtEOF],
   None).
Example test_parse_for_stmt_error_lparen_ok : errs test_parse_for_stmt_error_lparen = true. Proof. vm_compute. reflexivity. Qed.
(** tests/parser/test_statement_error.c test_parse_for_stmt_error_init_decl *)
Definition test_parse_for_stmt_error_init_decl : case :=
  (NStmt, [],
   [TTok KwFor; TTok LParen; TTok KwInt; TIdent [120]; TTok Equal; TTok Semicolon; TTok Semicolon; TTok RParen; TTok LBrace; TTok RBrace; TTok CtEOF],
   None).
Example test_parse_for_stmt_error_init_decl_ok : errs test_parse_for_stmt_error_init_decl = true. Proof. vm_compute. reflexivity. Qed.
(** tests/parser/test_statement_error.c test_parse_for_stmt_error_init_expr *)
Definition test_parse_for_stmt_error_init_expr : case :=
  (NStmt, [],
   [TTok KwFor; TTok LParen; TIdent [120]; TTok Equal; TTok Semicolon; TTok Semicolon; TTok RParen; TTok LBrace; TTok RBrace; TTok CtEOF],
   None).
Example test_parse_for_stmt_error_init_expr_ok : errs test_parse_for_stmt_error_init_expr = true. Proof. vm_compute. reflexivity. Qed.
(** tests/parser/test_statement_error.c test_parse_for_stmt_error_init_expr_semicolon *)
Definition test_parse_for_stmt_error_init_expr_semicolon : case :=
  (NStmt, [],
   [TTok KwFor; TTok LParen; TIdent [120]; TTok Equal; TInt (new_signed IInt 0); TTok Colon; TTok Semicolon; TTok RParen; TTok LBrace; TTok RBrace; TTok CtEOF],
   None).
Example test_parse_for_stmt_error_init_expr_semicolon_ok : errs test_parse_for_stmt_error_init_expr_semicolon = true. Proof. vm_compute. reflexivity. Qed.
(** tests/parser/test_statement_error.c test_parse_for_stmt_error_controlling_expr *)
Definition test_parse_for_stmt_error_controlling_expr : case :=
  (NStmt, [],
   [TTok KwFor; TTok LParen; TTok Semicolon; TIdent [120]; TTok ExclamEqual; TTok Semicolon; TTok RParen; TTok LBrace; TTok RBrace; TTok CtEOF],
   None).
Example test_parse_for_stmt_error_controlling_expr_ok : errs test_parse_for_stmt_error_controlling_expr = true. Proof. vm_compute. reflexivity. Qed.
(** tests/parser/test_statement_error.c test_parse_for_stmt_error_controlling_expr_semicolon *)
Definition test_parse_for_stmt_error_controlling_expr_semicolon : case :=
  (NStmt, [],
   [TTok KwFor; TTok LParen; TTok Semicolon; TIdent [120]; TTok ExclamEqual; TInt (new_signed IInt 10); TIdent [120]; TTok PlusPlus; TTok RParen; TTok LBrace; TTok RBrace; TTok CtEOF],
   None).
Example test_parse_for_stmt_error_controlling_expr_semicolon_ok : errs test_parse_for_stmt_error_controlling_expr_semicolon = true. Proof. vm_compute. reflexivity. Qed.
(** tests/parser/test_statement_error.c test_parse_for_stmt_error_expr *)
Definition test_parse_for_stmt_error_expr : case :=
  (NStmt, [],
   [TTok KwFor; TTok LParen; TTok Semicolon; TTok Semicolon; TTok Semicolon; TTok RParen; TTok LBrace; TTok RBrace; TTok CtEOF],
   None).
Example test_parse_for_stmt_error_expr_ok : errs test_parse_for_stmt_error_expr = true. Proof. vm_compute. reflexivity. Qed.
(** tests/parser/test_statement_error.c test_parse_for_stmt_error_expr_rparen *)
Definition test_parse_for_stmt_error_expr_rparen : case :=
  (NStmt, [],
   [TTok KwFor; TTok LParen; TTok KwInt; TIdent [105]; TTok Equal; TInt (new_signed IInt 0); TTok Semicolon; TIdent [105]; TTok Less; TInt (new_signed IInt 10); TTok Semicolon; TIdent [105]; TTok PlusPlus; TTok LBrace; TTok RBrace; TTok CtEOF],
   None).
Example test_parse_for_stmt_error_expr_rparen_ok : errs test_parse_for_stmt_error_expr_rparen = true. Proof. vm_compute. reflexivity. Qed.
(** tests/parser/test_statement_error.c test_parse_for_stmt_error_body *)
Definition test_parse_for_stmt_error_body : case :=
  (NStmt, [],
   [TTok KwFor; TTok LParen; TTok KwInt; TIdent [105]; TTok Equal; TInt (new_signed IInt 0); TTok Semicolon; TTok Semicolon; TTok RParen; TTok Equal; TTok LBrace; TTok RBrace; TTok CtEOF],
   None).
Example test_parse_for_stmt_error_body_ok : errs test_parse_for_stmt_error_body = true. Proof. vm_compute. reflexivity. Qed.
(** tests/parser/test_external.c test_parse_transration_unit *)
Definition test_parse_transration_unit : case :=
  ((NTransUnit []), [],
   [TTok KwInt; TIdent [105; 110; 99; 114; 105; 109; 101; 110; 116]; TTok LParen; TTok KwInt; TTok RParen; TTok Semicolon; TTok KwInt; TIdent [100; 101; 99; 114; 105; 109; 101; 110; 116]; TTok LParen; TTok KwInt; TIdent [120]; TTok RParen; TTok LBrace; TTok KwReturn; TIdent [120]; TTok Minus; TInt (new_signed IInt 1); TTok Semicolon; TTok RBrace; TTok KwChar; TIdent [99; 97; 115; 116]; TTok LParen; TTok KwInt; TIdent [120]; TTok RParen; TTok LBrace; TTok KwReturn; TIdent [120]; TTok Semicolon; TTok RBrace; TTok KwVoid; TIdent [110; 117; 108; 108]; TTok LParen; TTok KwVoid; TTok RParen; TTok LBrace; TTok RBrace; TTok CtEOF],
   Some (new_ast AST_TRAS_UNIT [(new_ast AST_DECL [(new_ast AST_DECL_SPECS [(new_ast AST_TYPE_INT [])]); (new_ast AST_INIT_DECLOR_LIST [(new_ast AST_INIT_DECLOR [(new_ast AST_FUNC_DECLOR [(new_identifier_ast AST_IDENT_DECLOR [105; 110; 99; 114; 105; 109; 101; 110; 116]); (new_ast AST_PARAM_LIST [(new_ast AST_PARAM_DECL [(new_ast AST_DECL_SPECS [(new_ast AST_TYPE_INT [])]); (new_ast AST_ABS_DECLOR [])])])])])])]); (new_ast AST_FUNC_DEF [(new_ast AST_DECL_SPECS [(new_ast AST_TYPE_INT [])]); (new_ast AST_FUNC_DECLOR [(new_identifier_ast AST_IDENT_DECLOR [100; 101; 99; 114; 105; 109; 101; 110; 116]); (new_ast AST_PARAM_LIST [(new_ast AST_PARAM_DECL [(new_ast AST_DECL_SPECS [(new_ast AST_TYPE_INT [])]); (new_identifier_ast AST_IDENT_DECLOR [120])])])]); (new_ast AST_CMPD_STMT [(new_ast AST_RET_STMT [(new_ast AST_SUB_EXPR [(new_identifier_ast AST_IDENT_EXPR [120]); (new_iliteral_ast AST_INT_EXPR (new_signed IInt 1))])])])]); (new_ast AST_FUNC_DEF [(new_ast AST_DECL_SPECS [(new_ast AST_TYPE_CHAR [])]); (new_ast AST_FUNC_DECLOR [(new_identifier_ast AST_IDENT_DECLOR [99; 97; 115; 116]); (new_ast AST_PARAM_LIST [(new_ast AST_PARAM_DECL [(new_ast AST_DECL_SPECS [(new_ast AST_TYPE_INT [])]); (new_identifier_ast AST_IDENT_DECLOR [120])])])]); (new_ast AST_CMPD_STMT [(new_ast AST_RET_STMT [(new_identifier_ast AST_IDENT_EXPR [120])])])]); (new_ast AST_FUNC_DEF [(new_ast AST_DECL_SPECS [(new_ast AST_TYPE_VOID [])]); (new_ast AST_FUNC_DECLOR [(new_identifier_ast AST_IDENT_DECLOR [110; 117; 108; 108]); (new_ast AST_PARAM_LIST [(new_ast AST_PARAM_DECL [(new_ast AST_DECL_SPECS [(new_ast AST_TYPE_VOID [])]); (new_ast AST_ABS_DECLOR [])])])]); (new_ast AST_CMPD_STMT [])])])).
Example test_parse_transration_unit_ok : run test_parse_transration_unit = snd test_parse_transration_unit. Proof. vm_compute. reflexivity. Qed.
(** tests/parser/test_external_error.c test_parse_translation_unit_error_empty *)
Definition test_parse_translation_unit_error_empty : case :=
  ((NTransUnit []), [],
   [TTok CtEOF],
   None).
Example test_parse_translation_unit_error_empty_ok : errs test_parse_translation_unit_error_empty = true. Proof. vm_compute. reflexivity. Qed.
(** tests/parser/test_external_error.c test_parse_external_decl_error *)
Definition test_parse_external_decl_error : case :=
  ((NTransUnit []), [],
   [TTok KwChar; TTok Asterisk; TTok KwInt; TTok Semicolon; TTok CtEOF],
   None).
Example test_parse_external_decl_error_ok : errs test_parse_external_decl_error = true. Proof. vm_compute. reflexivity. Qed.
(** tests/parser/test_external_error.c test_parse_function_definition_error_decl_specifier *)
Definition test_parse_function_definition_error_decl_specifier : case :=
  ((NTransUnit []), [],
   [TIdent [102]; TTok LParen; TTok RParen; TTok LBrace; TTok RBrace; TTok CtEOF],
   None).
Example test_parse_function_definition_error_decl_specifier_ok : errs test_parse_function_definition_error_decl_specifier = true. Proof. vm_compute. reflexivity. Qed.
(** tests/parser/test_external_error.c test_parse_function_definition_error_decl_specifier_235 *)
Definition test_parse_function_definition_error_decl_specifier_235 : case :=
  (NFuncDef, [],
   [TIdent [102]; TTok LParen; TTok RParen; TTok LBrace; TTok RBrace; TTok CtEOF],
   None).
Example test_parse_function_definition_error_decl_specifier_235_ok : errs test_parse_function_definition_error_decl_specifier_235 = true. Proof. vm_compute. reflexivity. Qed.
(** tests/parser/test_external_error.c test_parse_function_definition_error_empty_param_specifier *)
Definition test_parse_function_definition_error_empty_param_specifier : case :=
  ((NTransUnit []), [],
   [TTok KwChar; TIdent [102]; TTok LParen; TIdent [97]; TTok RParen; TTok LBrace; TTok RBrace; TTok CtEOF],
   None).
Example test_parse_function_definition_error_empty_param_specifier_ok : errs test_parse_function_definition_error_empty_param_specifier = true. Proof. vm_compute. reflexivity. Qed.
(** tests/parser/test_external_error.c test_parse_function_definition_error_empty_param_specifier_237 *)
Definition test_parse_function_definition_error_empty_param_specifier_237 : case :=
  (NFuncDef, [],
   [TTok KwChar; TIdent [102]; TTok LParen; TIdent [97]; TTok RParen; TTok LBrace; TTok RBrace; TTok CtEOF],
   None).
Example test_parse_function_definition_error_empty_param_specifier_237_ok : errs test_parse_function_definition_error_empty_param_specifier_237 = true. Proof. vm_compute. reflexivity. Qed.
(** tests/parser/test_external_error.c test_parse_function_definition_error_param_list *)
Definition test_parse_function_definition_error_param_list : case :=
  ((NTransUnit []), [],
   [TTok KwInt; TIdent [102]; TTok LParen; TTok KwChar; TIdent [97]; TTok CtEOF],
   None).
Example test_parse_function_definition_error_param_list_ok : errs test_parse_function_definition_error_param_list = true. Proof. vm_compute. reflexivity. Qed.
(** tests/parser/test_external_error.c test_parse_function_definition_error_param_list_239 *)
Definition test_parse_function_definition_error_param_list_239 : case :=
  (NFuncDef, [],
   [TTok KwInt; TIdent [102]; TTok LParen; TTok KwChar; TIdent [97]; TTok CtEOF],
   None).
Example test_parse_function_definition_error_param_list_239_ok : errs test_parse_function_definition_error_param_list_239 = true. Proof. vm_compute. reflexivity. Qed.
(** tests/parser/test_external_error.c test_parse_function_definition_error_body *)
Definition test_parse_function_definition_error_body : case :=
  ((NTransUnit []), [],
   [TTok KwInt; TIdent [102]; TTok LParen; TTok KwVoid; TTok RParen; TTok LBrace; TTok KwInt; TIdent [120]; TTok Semicolon; TIdent [120]; TTok Equal; TInt (new_signed IInt 2); TTok Semicolon; TTok CtEOF],
   None).
Example test_parse_function_definition_error_body_ok : errs test_parse_function_definition_error_body = true. Proof. vm_compute. reflexivity. Qed.
(** tests/parser/test_external_error.c test_parse_function_definition_error_body_241 *)
Definition test_parse_function_definition_error_body_241 : case :=
  (NFuncDef, [],
   [TTok KwInt; TIdent [102]; TTok LParen; TTok KwVoid; TTok RParen; TTok LBrace; TTok KwInt; TIdent [120]; TTok Semicolon; TIdent [120]; TTok Equal; TInt (new_signed IInt 2); TTok Semicolon; TTok CtEOF],
   None).
Example test_parse_function_definition_error_body_241_ok : errs test_parse_function_definition_error_body_241 = true. Proof. vm_compute. reflexivity. Qed.
