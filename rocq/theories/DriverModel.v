(** Model of src/freader and src/main.c: the compiler as a command. *)
From Verif Require Export LexerModel ParserModel ResolverModel ImmcgenModel RegallocModel X64genModel.
Open Scope Z_scope.

(** main.c:45-102: from the text of the source file to the assembly codes *)
Definition compile_codes (src : list Z) : res (list x64) :=
  do tokens <- lex_source src;
  do tree <- parse_tokens tokens;
  do typed <- resolve tree;
  do code <- immcgen typed;
  do (code, lives) <- allocate_regs (Z.to_nat NUM_CALLER_SAVED_REGS) code;
  x64gen code lives.
(** main.c:104-110 *)
Definition compile (src : list Z) : res (list Z) := do l <- compile_codes src; print_x64 l.

(** freader/freader.c:11-30: an empty file is an error; [size] bytes are read *)
Definition freader_read (content : list Z) : res (list Z) :=
  match content with [] => Err | _ => Ok content end.

(** main.c:26-30: strrchr(name, '.') *)
Fixpoint strrchr (c : Z) (s : list Z) : option (list Z) :=
  match s with
  | [] => None
  | x :: r =>
      match strrchr c r with
      | Some t => Some t
      | None => if x =? c then Some s else None
      end
  end.
(** main.c:100-101: dst_filename[len - 1] = 's' *)
Definition output_name (src : list Z) : list Z := removelast src ++ [115].

(** What the command leaves behind: its exit status and the file it wrote, if any *)
Record effect := mkeffect { status : Z; written : option (list Z * list Z) }.

(** main.c:13-118. [files] gives the content of the files that can be opened for reading, [writable] tells
    whether a name can be opened for writing (otherwise fprintf gets a NULL stream). A stage that reports
    an error makes main return 1; a stage that finds itself in an "unreachable statement" calls exit(1);
    both come before the output file is opened. *)
Definition main (args : list (list Z)) (files : list Z -> option (list Z)) (writable : list Z -> bool) : res effect :=
  let fail := Ok (mkeffect 1 None) in
  match args with
  | [src] =>
      match files src with
      | None => fail
      | Some content =>
          match strrchr 46 src with
          | Some [46; 99] =>
              match (do text <- freader_read content; compile_codes text) with
              | Ok codes =>
                  if writable (output_name src) then
                    do text <- print_x64 codes; Ok (mkeffect 0 (Some (output_name src, text)))
                  else UB
              | Err | Fatal => fail
              | UB => UB
              | Fuel => Fuel
              end
          | _ => fail
          end
      end
  | _ => fail
  end.
