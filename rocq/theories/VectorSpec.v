(** Specification of vectors: a pair of mathematical lists and the operations on them.
    Independent of src/vector. *)
From Verif Require Import Base.

Section Spec.
  Context {A : Type}.

  (** Two vectors (selected by a boolean), so that extend and copy have a second operand. *)
  Inductive vop :=
  | OPush (b : bool) (x : A)
  | OPop (b : bool)
  | OFill (b : bool) (n : Z) (x : A)      (* pad with x up to length n *)
  | OSet (b : bool) (i : Z) (x : A)
  | OInsert (b : bool) (i : Z) (x : A)
  | OErase (b : bool) (i : Z)
  | OAt (b : bool) (i : Z)
  | OSize (b : bool)
  | OExtend (b : bool)                    (* append the other list to b, emptying the other *)
  | OCopy (b : bool).                     (* overwrite b by a copy of the other *)

  (** What the caller observes. *)
  Inductive vout := RNone | RItem (x : A) | RBool (r : bool) | RPtr (o : option A) | RNat (n : nat).

  Definition inb (i : Z) (n : nat) : bool := ((0 <=? i) && (i <? Z.of_nat n))%Z.

  (** i-th element, if [i] is a valid index *)
  Definition lookup (l : list A) (i : Z) : option A :=
    if inb i (length l) then nth_error l (Z.to_nat i) else None.

  Definition get2 {T} (p : T * T) (b : bool) : T := if b then fst p else snd p.
  Definition put2 {T} (p : T * T) (b : bool) (x : T) : T * T :=
    if b then (x, snd p) else (fst p, x).

  (** [None]: the precondition of the operation is violated (pop of an empty list). *)
  Definition spec_step (s : list A * list A) (o : vop) : option ((list A * list A) * vout) :=
    match o with
    | OPush b x => Some (put2 s b (get2 s b ++ [x]), RNone)
    | OPop b =>
        match rev (get2 s b) with
        | [] => None
        | x :: r => Some (put2 s b (rev r), RItem x)
        end
    | OFill b n x =>
        let l := get2 s b in Some (put2 s b (l ++ repeat x (Z.to_nat n - length l)), RNone)
    | OSet b i x =>
        let l := get2 s b in
        if inb i (length l)
        then Some (put2 s b (firstn (Z.to_nat i) l ++ x :: skipn (S (Z.to_nat i)) l), RBool true)
        else Some (s, RBool false)
    | OInsert b i x =>
        let l := get2 s b in
        if inb i (S (length l))
        then Some (put2 s b (firstn (Z.to_nat i) l ++ x :: skipn (Z.to_nat i) l), RNone)
        else Some (s, RNone)
    | OErase b i =>
        let l := get2 s b in
        if inb i (length l)
        then Some (put2 s b (firstn (Z.to_nat i) l ++ skipn (S (Z.to_nat i)) l), RNone)
        else Some (s, RNone)
    | OAt b i => Some (s, RPtr (lookup (get2 s b) i))
    | OSize b => Some (s, RNat (length (get2 s b)))
    | OExtend b => Some (put2 (put2 s b (get2 s b ++ get2 s (negb b))) (negb b) [], RNone)
    | OCopy b => Some (put2 s b (get2 s (negb b)), RNone)
    end.

  Fixpoint spec_run (s : list A * list A) (ops : list vop) : option ((list A * list A) * list vout) :=
    match ops with
    | [] => Some (s, [])
    | o :: t =>
        match spec_step s o with
        | None => None
        | Some (s1, r) =>
            match spec_run s1 t with
            | None => None
            | Some (s2, rs) => Some (s2, r :: rs)
            end
        end
    end.
End Spec.
Arguments vop A : clear implicits.
Arguments vout A : clear implicits.
