(** Programs compiled as they are meant: regular functions and static objects *)
From Verif Require Import Base SrtModel TypeSpec CSem CProgram GenSpec.
Open Scope Z_scope.

(** Static initialisers: the members of a structure must follow each other, from its first byte on. *)
Definition struct_size (T : tagtab) (d : dtype) : option Z :=
  match d with
  | DTYPE_USTRUCT _ nb _ => Some nb
  | DTYPE_NSTRUCT n _ _ => match tag_search T n with Some (DTYPE_USTRUCT _ nb _) => Some nb | _ => None end
  | _ => None
  end.
(** the constants: literals and casts of them *)
Fixpoint constant (e : srt) : bool :=
  match e with
  | Srt SRT_CAST_EXPR _ _ [c] => constant c
  | Srt SRT_ILITERAL_EXPR _ _ _ => true
  | _ => false
  end.
Fixpoint regular_static (T : tagtab) (s : srt) (d : dtype) {struct s} : bool :=
  match s with
  | Srt SRT_INIT _ _ cs =>
      match d with
      | DTYPE_ARRAY e n =>
          match cs with
          | [Srt SRT_SLITERAL_EXPR _ (SPStr l) _] => Z.of_nat (length l) =? sizeof d
          | _ => (Z.of_nat (length cs) =? n) && forallb (fun c => regular_static T c e) cs
          end
      | DTYPE_USTRUCT _ _ _ | DTYPE_NSTRUCT _ _ _ =>
          match struct_members T d, struct_size T d with
          | Some (((_, _, 0) :: _) as ms), Some nb =>
              (nb =? sizeof d) &&
              (fix members (l : list srt) (ms : list (name * dtype * Z)) (pos : Z) {struct l} : bool :=
                 match l, ms with
                 | [], [] => pos <=? sizeof d
                 | c :: r, (_, t, off) :: ms => (pos <=? off) && regular_static T c t && members r ms (off + sizeof t)
                 | _, _ => false
                 end) cs ms 0
          | _, _ => false
          end
      | _ => match cs with [e] => regular e && constant e | _ => false end
      end
  | _ => false
  end.

(** the scopes after the parameters of a function *)
Fixpoint parameters (ps : list (option name * dtype)) (Sc : scopes) : res scopes :=
  match ps with
  | [] => Ok Sc
  | (Some n, d) :: ps => do y <- sym_define_memory (s_syms Sc) n d; parameters ps (mkscopes y (s_tags Sc))
  | (None, _) :: _ => Fatal
  end.
Fixpoint regular_items (Sc : scopes) (l : list srt) : bool :=
  match l with
  | [] => true
  | x :: r => regular_stmt Sc x && match after x Sc with Ok Sc => regular_items Sc r | _ => false end
  end.
Definition regular_function (f : func) : bool :=
  match (do Sc <- function_scopes f; parameters (f_params f) Sc) with Ok Sc => regular_items Sc (f_body f) | _ => false end.
Definition regular_object (o : static) : bool :=
  match o_init o with Some i => regular_static (s_tags (o_scopes o)) i (o_type o) | None => true end.
Definition regular_program (s : srt) : bool :=
  match translation_unit s with
  | Ok u => forallb (fun f => regular_function (snd f)) (u_functions u) && forallb regular_object (u_statics u)
  | _ => false
  end.
