(** Scopes: what a history of scope entries, exits and declarations makes visible. *)
From Verif Require Import Base DtypeModel.
Local Open Scope Z_scope.

Inductive event (A : Type) := Enter | Exit | Declare (n : name) (a : A).
Arguments Enter {A}. Arguments Exit {A}. Arguments Declare {A} n a.

(** Histories have the latest event first. [depth h]: the number of scopes open after [h]. [None]: a
    scope was left that had not been entered. *)
Fixpoint depth {A} (h : list (event A)) : option nat :=
  match h with
  | [] => Some O
  | Enter :: r => option_map S (depth r)
  | Exit :: r => match depth r with Some (S d) => Some d | _ => None end
  | Declare _ _ :: r => depth r
  end.
(** The visible declaration of [n]: read backwards, passing over the scopes that have been left
    ([closed] counts those being passed over). *)
Fixpoint visible {A} (closed : nat) (h : list (event A)) (n : name) : option A :=
  match h with
  | [] => None
  | Exit :: r => visible (S closed) r n
  | Enter :: r => visible (pred closed) r n
  | Declare m a :: r =>
      match closed with
      | O => if name_eqb m n then Some a else visible closed r n
      | S _ => visible closed r n
      end
  end.
(** [n] has been declared in the scope that is open now *)
Fixpoint declared_here {A} (closed : nat) (h : list (event A)) (n : name) : bool :=
  match h with
  | [] => false
  | Exit :: r => declared_here (S closed) r n
  | Enter :: r => match closed with O => false | S c => declared_here c r n end
  | Declare m _ :: r =>
      match closed with
      | O => name_eqb m n || declared_here closed r n
      | S _ => declared_here closed r n
      end
  end.
(** a part of a history that leaves every scope it enters and enters every scope it leaves *)
Fixpoint balanced {A} (closed : nat) (h : list (event A)) : bool :=
  match h with
  | [] => match closed with O => true | _ => false end
  | Exit :: r => balanced (S closed) r
  | Enter :: r => match closed with O => false | S c => balanced c r end
  | Declare _ _ :: r => balanced closed r
  end.

(** what a name can be declared as *)
Inductive declaration :=
| DStatic (d : dtype)            (* a label: functions, globals, typedef names *)
| DLocal (d : dtype)             (* an object on the stack *)
| DConstant (d : dtype) (i : iliteral).

(** an object of [size] bytes that begins [offset] bytes below the frame pointer *)
Record slot := mkslot { offset : Z; size : Z; of_type : dtype }.
Definition slots_disjoint (a b : slot) : Prop :=
  - offset a + size a <= - offset b \/ - offset b + size b <= - offset a.
Definition slot_in_frame (frame : Z) (a : slot) : Prop := 0 <= size a /\ size a <= offset a <= frame.
