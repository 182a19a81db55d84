(** C15: which identifiers of a tree are used as types and which as objects, functions or constants. *)
From Verif Require Import Base LexerModel AstModel.

(** the name a declarator declares *)
Fixpoint declared (a : ast) : option name :=
  let 'Ast t p cs := a in
  match t, p, cs with
  | AST_IDENT_DECLOR, PName n, _ => Some n
  | (AST_PTR_DECLOR | AST_ARRAY_DECLOR | AST_FUNC_DECLOR | AST_INIT_DECLOR), _, c :: _ => declared c
  | _, _, _ => None
  end.
Definition says_typedef (specs : ast) : bool := existsb (fun a => asttype_eqb (ast_type a) AST_STG_TYPEDEF) (ast_children specs).
(** the typedef names visible after a declarator, after a declaration or a function definition *)
Definition with_declared (td : bool) (S : list name) (d : ast) : list name := match td, declared d with true, Some n => n :: S | _, _ => S end.
Definition after (S : list name) (a : ast) : list name :=
  match a with
  | Ast AST_DECL _ [specs; ds] => fold_left (with_declared (says_typedef specs)) (ast_children ds) S
  | Ast AST_FUNC_DEF _ (specs :: d :: _) => with_declared (says_typedef specs) S d
  | _ => S
  end.
(** [uses S a]: where the typedef names in [S] are visible, the tree [a] uses each identifier as a type if it is one of
    them at that place and as an object, function or constant if it is not. A block ends the visibility of the
    typedefs in it; members are not looked up. *)
Fixpoint uses (S : list name) (a : ast) : Prop :=
  let 'Ast t p cs := a in
  match t with
  | AST_IDENT_EXPR => match p with PName n => ~ In n S | _ => False end
  | AST_TYPEDEF_NAME => match p with PName n => In n S | _ => False end
  | AST_MEMBER_EXPR | AST_TOMEMBER_EXPR => match cs with [x; _] => uses S x | _ => False end
  | AST_CMPD_STMT | AST_TRAS_UNIT => (fix items (S : list name) (l : list ast) : Prop := match l with [] => True | c :: r => uses S c /\ items (after S c) r end) S cs
  | AST_DECL =>
    match cs with
    | [specs] => uses S specs
    | [specs; Ast _ _ ds] => uses S specs /\
      (fix declors (S : list name) (l : list ast) : Prop :=
         match l with [] => True | c :: r => uses (with_declared (says_typedef specs) S c) c /\ declors (with_declared (says_typedef specs) S c) r end) S ds
    | _ => False
    end
  | AST_FUNC_DEF => match cs with [specs; d; b] => let S' := with_declared (says_typedef specs) S d in uses S specs /\ uses S' d /\ uses S' b | _ => False end
  | _ => (fix all (l : list ast) : Prop := match l with [] => True | c :: r => uses S c /\ all r end) cs
  end.
