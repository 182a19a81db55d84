(** Model of src/literal: integer and string literals. *)
From Verif Require Import Base.
Local Open Scope Z_scope.

(** literal/iliteral.h IntegerLiteralType *)
Inductive iltype := IInt | IUInt | ILong | IULong | ILongLong | IULongLong.
Definition iltype_eq_dec (a b : iltype) : {a = b} + {a <> b}.
Proof. decide equality. Defined.

(** literal/iliteral.h IntegerLiteral *)
Record iliteral := mkil { itype : iltype; sval : Z; uval : Z }.

(** iliteral.c:14-32: the field that is not given keeps its initial value *)
Definition new_signed (t : iltype) (v : Z) : iliteral := mkil t v 0.
Definition new_unsigned (t : iltype) (v : Z) : iliteral := mkil t (-1) v.

(** iliteral.c:67-69 *)
Definition iltype_isunsigned (t : iltype) : bool :=
  match t with IUInt | IULong | IULongLong => true | _ => false end.
Definition iliteral_isunsigned (i : iliteral) : bool := iltype_isunsigned (itype i).

(** iliteral.c:71-85 *)
Definition iltype_nbytes (t : iltype) : Z :=
  match t with IInt | IUInt => 4 | _ => 8 end.
Definition iliteral_nbytes (i : iliteral) : Z := iltype_nbytes (itype i).

(** iliteral.c:87-95 iliteral_type_get *)
Definition iltype_get (rank : Z) (unsigned : bool) : iltype :=
  if rank <? 3 then (if unsigned then IUInt else IInt)
  else if rank =? 3 then (if unsigned then IULong else ILong)
  else (if unsigned then IULongLong else ILongLong).

(** printf "%llu"/"%lld": decimal digits of a non-negative number, most significant first.
    [fuel] bounds the number of digits. *)
Fixpoint dec_digits (fuel : nat) (n : Z) : list Z :=
  match fuel with
  | O => []
  | S f => if n <? 10 then [48 + n] else dec_digits f (n / 10) ++ [48 + n mod 10]
  end.
Definition print_unsigned (n : Z) : list Z := dec_digits (S (Z.to_nat (Z.log2 n))) n.
Definition print_signed (n : Z) : list Z :=
  if n <? 0 then 45 :: print_unsigned (- n) else print_unsigned n.

(** iliteral.c:51-61 iliteral_display_string (at most 20 digits and a sign: the 50-byte buffer suffices) *)
Definition iliteral_display (i : iliteral) : list Z :=
  if iliteral_isunsigned i then print_unsigned (uval i) else print_signed (sval i).

(** sliteral.c: a string literal is its array of (signed) chars, including the terminator. *)
Definition sliteral := list Z.

(** sliteral.c:29-40 sliteral_zero_padding_copy; [size] is never negative at the call sites *)
Definition zero_padding_copy (s : sliteral) (size : nat) : sliteral :=
  if (length s <? size)%nat then s ++ repeat 0 (size - length s) else firstn size s.

(** sliteral.c:12: the characters printed as themselves *)
Definition display_table : list Z :=
  bytes " !#$%&()*+,-./0123456789:;<=>@ABCDEFGHIJKLMNOPQRSTUVWXYZ[]^_`abcdefghijklmnopqrstuvwxyz{|}~".

(** printf "%o" of a non-negative number *)
Fixpoint oct_digits (fuel : nat) (n : Z) : list Z :=
  match fuel with
  | O => []
  | S f => if n <? 8 then [48 + n] else oct_digits f (n / 8) ++ [48 + n mod 8]
  end.
(** printf "%03o" of an int: the argument is read as a 32-bit unsigned int *)
Definition print_03o (c : Z) : list Z :=
  let d := oct_digits 12 (wrapu 32 c) in
  repeat 48 (3 - length d) ++ d.

(** sliteral.c:50-108, one iteration: the text written at display_string + len, and the amount added
    to len. *)
Definition display_char (c : Z) : list Z * nat :=
  if existsb (Z.eqb c) display_table then ([c], 1%nat)
  else
    match c with
    | 39 => ([92; 39], 2%nat)  | 34 => ([92; 34], 2%nat) | 63 => ([92; 63], 2%nat)
    | 92 => ([92; 92], 2%nat)  | 7 => ([92; 97], 2%nat)  | 8 => ([92; 98], 2%nat)
    | 12 => ([92; 102], 2%nat) | 10 => ([92; 110], 2%nat) | 13 => ([92; 114], 2%nat)
    | 9 => ([92; 116], 2%nat)  | 11 => ([92; 118], 2%nat)
    | _ => (92 :: print_03o c, 4%nat)
    end.

(** sliteral.c:42-116 sliteral_display_string.  [buf] is the NUL-terminated text currently in the
    buffer of [cap] bytes, [len] the write position; every sprintf cuts the text at len first.
    Writing past the buffer is UB, and so is a result longer than the final realloc to len + 1. *)
Fixpoint display_loop (cap : nat) (s : sliteral) (buf : list Z) (len : nat) : res (list Z) :=
  match s with
  | [] =>
      if (Nat.ltb cap (length buf + 2)) then UB
      else if (length buf =? len)%nat then Ok (buf ++ [34]) else UB
  | c :: t =>
      let '(txt, adv) := display_char c in
      if (Nat.ltb cap (len + length txt + 1)) then UB
      else display_loop cap t (firstn len buf ++ txt) (len + adv)
  end.
Definition sliteral_display (s : sliteral) : res (list Z) :=
  display_loop (4 * length s + 3) s [34] 1.
