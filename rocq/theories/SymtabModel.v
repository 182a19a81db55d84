(** Model of src/symtab and src/tagtab: scoped tables of names.

    The hash map of a scope is only ever added to and queried, never removed from or iterated over;
    by theorems C02_map_latest_binding and its companions it is then an association list. *)
From Verif Require Export DtypeModel.
Open Scope Z_scope.

(** symtab/symbol.h:8-20 *)
Inductive symkind := SYMBOL_LABEL | SYMBOL_MEM (memory_offset : Z) | SYMBOL_INT (i : iliteral).
Record symbol := mksym { sy_kind : symkind; sy_dtype : dtype }.

(** association list of a scope: the latest binding first *)
Fixpoint assoc {A} (n : name) (l : list (name * A)) : option A :=
  match l with
  | [] => None
  | (m, v) :: r => if name_eqb n m then Some v else assoc n r
  end.

(** symtab/symtab.h SymbolTable, innermost scope first *)
Record scope := mkscope { sc_map : list (name * symbol); sc_nbytes : Z }.
Definition symtab := list scope.
(** symtab.c:8-14 *)
Definition new_symtab : symtab := [mkscope [] 0].
(** symtab.c:27-29 symboltable_can_define *)
Definition sym_can_define (t : symtab) (n : name) : res bool :=
  match t with
  | [] => UB
  | s :: _ => Ok (match assoc n (sc_map s) with None => true | Some _ => false end)
  end.
Definition sym_add (t : symtab) (n : name) (s : symbol) (nbytes : Z) : symtab :=
  match t with [] => [] | sc :: r => mkscope ((n, s) :: sc_map sc) nbytes :: r end.
(** symtab.c:31-39 symboltable_define_label: no effect when the name is taken in this scope *)
Definition sym_define_label (t : symtab) (n : name) (d : dtype) : res symtab :=
  do b <- sym_can_define t n;
  match t with
  | [] => UB
  | sc :: _ => Ok (if b then sym_add t n (mksym SYMBOL_LABEL d) (sc_nbytes sc) else t)
  end.
(** symtab.c:41-50 symboltable_define_memory *)
Definition sym_define_memory (t : symtab) (n : name) (d : dtype) : res symtab :=
  do b <- sym_can_define t n;
  match t with
  | [] => UB
  | sc :: _ =>
      if b then
        do nb <- min_multiple_of (sc_nbytes sc + dtype_nbytes d) 4;
        Ok (sym_add t n (mksym (SYMBOL_MEM nb) d) nb)
      else Ok t
  end.
(** symtab.c:52-60 symboltable_define_integer *)
Definition sym_define_integer (t : symtab) (n : name) (d : dtype) (i : iliteral) : res symtab :=
  do b <- sym_can_define t n;
  match t with
  | [] => UB
  | sc :: _ => Ok (if b then sym_add t n (mksym (SYMBOL_INT i) d) (sc_nbytes sc) else t)
  end.
(** symtab.c:62-72 symboltable_search *)
Fixpoint sym_search (t : symtab) (n : name) : option symbol :=
  match t with
  | [] => None
  | s :: r => match assoc n (sc_map s) with Some y => Some y | None => sym_search r n end
  end.
(** symtab.c:74-81 symboltable_enter_scope *)
Definition sym_enter (t : symtab) : symtab :=
  mkscope [] (match t with [] => 0 | s :: _ => sc_nbytes s end) :: t.
(** symtab.c:83-91 symboltable_exit_scope *)
Definition sym_exit (t : symtab) : res symtab :=
  match t with
  | [] => UB
  | [_] => Ok []
  | s :: o :: r => Ok (mkscope (sc_map o) (sc_nbytes s) :: r)
  end.
(** `symbol_table->memory_nbytes = n` *)
Definition sym_set_nbytes (t : symtab) (n : Z) : res symtab :=
  match t with [] => UB | s :: r => Ok (mkscope (sc_map s) n :: r) end.

(** tagtab/tagtab.h TagTable, innermost scope first *)
Definition tagtab := list (list (name * dtype)).
(** tagtab.c:5-10 *)
Definition new_tagtab : tagtab := [[]].
(** tagtab.c:22-24 *)
Definition tag_can_define (t : tagtab) (n : name) : res bool :=
  match t with
  | [] => UB
  | s :: _ => Ok (match assoc n s with None => true | Some _ => false end)
  end.
(** tagtab.c:26-36 *)
Fixpoint tag_search (t : tagtab) (n : name) : option dtype :=
  match t with
  | [] => None
  | s :: r => match assoc n s with Some d => Some d | None => tag_search r n end
  end.
Definition tag_add (t : tagtab) (n : name) (d : dtype) : tagtab :=
  match t with [] => [] | s :: r => ((n, d) :: s) :: r end.
(** tagtab.c:38-45 tagtable_define_struct *)
Definition tag_define_struct (t : tagtab) (n : name) (ms : list (name * dtype)) : res tagtab :=
  do b <- tag_can_define t n;
  if b then do d <- new_unnamed_struct ms; Ok (tag_add t n d) else Ok t.
(** tagtab.c:47-54 tagtable_define_enum *)
Definition tag_define_enum (t : tagtab) (n : name) (ms : list (name * Z)) : res tagtab :=
  do b <- tag_can_define t n;
  Ok (if b then tag_add t n (DTYPE_UENUM ms) else t).
(** tagtab.c:56-67 *)
Definition tag_enter (t : tagtab) : tagtab := [] :: t.
Definition tag_exit (t : tagtab) : res tagtab := match t with [] => UB | _ :: r => Ok r end.
