(** Shared vocabulary of the model: outcomes of a modelled C function and C integer arithmetic. *)
From Coq Require Export String Ascii.
From Coq Require Export ZArith NArith Arith Bool Lia List.
From Coq Require Export ZifyBool ZifyNat ZifyN.
Export ListNotations.

(** Outcome of running a piece of the compiler.
    [Ok v]    the function returned [v];
    [Err]     a compile error was reported to the caller (wording of the message not modelled);
    [UB]      the C code would exhibit undefined behaviour at this point (NULL dereference,
              out-of-range index, ...);
    [Fatal]   the code prints "fatal error: unreachable statement" and calls exit(1);
    [Fuel]    the model ran out of recursion fuel (never a result of the C code). *)
Inductive res (A : Type) : Type :=
| Ok (v : A)
| Err
| UB
| Fatal
| Fuel.
Arguments Ok {A} v.
Arguments Err {A}.
Arguments UB {A}.
Arguments Fatal {A}.
Arguments Fuel {A}.

Definition bind {A B : Type} (m : res A) (f : A -> res B) : res B :=
  match m with
  | Ok v => f v
  | Err => Err
  | UB => UB
  | Fatal => Fatal
  | Fuel => Fuel
  end.

Declare Scope res_scope.
Delimit Scope res_scope with res.
Notation "'do' x <- m ; k" := (bind m (fun x => k))
  (at level 200, x pattern, m at level 100, k at level 200, right associativity) : res_scope.
Open Scope res_scope.

Definition is_ok {A} (m : res A) : bool := match m with Ok _ => true | _ => false end.

(** [res] value of an optional pointer that is dereferenced: NULL dereference is UB. *)
Definition deref {A} (o : option A) : res A := match o with Some v => Ok v | None => UB end.

(** Update one element of a list (array store); [None] when the index is out of range. *)
Fixpoint list_set {A} (l : list A) (i : nat) (x : A) : option (list A) :=
  match l, i with
  | [], _ => None
  | _ :: t, O => Some (x :: t)
  | h :: t, S i' => match list_set t i' x with Some t' => Some (h :: t') | None => None end
  end.

(** Text: source bytes, names and assembly text are lists of byte values (0..255) in [Z]. *)
Definition byte := Z.
Definition name := list Z.
Fixpoint bytes (s : string) : list Z :=
  match s with
  | EmptyString => []
  | String c t => Z.of_N (N_of_ascii c) :: bytes t
  end.
Fixpoint name_eqb (a b : name) : bool :=
  match a, b with
  | [], [] => true
  | x :: a', y :: b' => (x =? y)%Z && name_eqb a' b'
  | _, _ => false
  end.

(** Machine integer ranges (x86-64 SysV, as the compiler is built with gcc). *)
Definition INT_MAX : Z := 2147483647.
Definition INT_MIN : Z := -2147483648.
Definition LLONG_MAX : Z := 9223372036854775807.
Definition LLONG_MIN : Z := -9223372036854775808.
Definition ULLONG_MAX : Z := 18446744073709551615.

(** Reduction of a mathematical integer to an unsigned [n]-bit and a signed two's complement
    [n]-bit representation. *)
Definition wrapu (n : Z) (x : Z) : Z := (x mod 2 ^ n)%Z.
Definition wraps (n : Z) (x : Z) : Z :=
  (let u := x mod 2 ^ n in if u <? 2 ^ (n - 1) then u else u - 2 ^ n)%Z.
