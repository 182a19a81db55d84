(** The library the end-to-end tests link with (/repo/test-fixtures/_/testlib.c), as external functions of
    the machine. Used by tests only. *)
From Verif Require Import DriverModel X64Decode X64Isa Machine.
Open Scope Z_scope.

(** the System V convention: the other registers are arbitrary after a call *)
Definition clobber (result : Z) (s : state) : state :=
  let f := regs s in
  let j := 1234605616436508552 in
  mkstate (mkregs result (rbx f) j j (rsp f) (rbp f) j j j j j j (r12 f) (r13 f) (r14 f) (r15 f)) None (mem s).
Definition junk64 : Z := 1311768467463790320.
Definition int_arg (v : Z) : list Z := print_signed (wraps 32 v) ++ [10].
Definition arg_regs (s : state) : list Z :=
  let f := regs s in [rdi f; rsi f; rdx f; rcx f; r8 f; r9 f].
Definition stack_arg (k : Z) (s : state) : list Z :=
  match load (mem s) S8 (rsp (regs s) + 8 * k) with Some v => [v] | None => [] end.
Fixpoint c_string (fuel : nat) (m : memory) (a : Z) : list Z :=
  match fuel with
  | O => []
  | S n => match load m S1 a with Some b => if b =? 0 then [] else b :: c_string n m (a + 1) | None => [] end
  end.
Fixpoint str_cmp (a b : list Z) : Z :=
  match a, b with
  | [], [] => 0
  | [], _ => -1
  | _, [] => 1
  | x :: a, y :: b => if x <? y then -1 else if x >? y then 1 else str_cmp a b
  end.
(** the test library, and the functions of the C library that the tests declare *)
Definition testlib_names : list name :=
  [bytes "put_char"; bytes "put_int"; bytes "put_unsigned_int"; bytes "put_long_long"; bytes "put_unsigned_long_long";
   bytes "identity_put_int"; bytes "put_7ints"; bytes "put_8ints"; bytes "put_str"; bytes "put_blank_line";
   bytes "new_node"; bytes "delete_node"; bytes "malloc"; bytes "free"; bytes "puts"; bytes "strcmp"].
Definition testlib : extern := fun n heap s =>
  let a := rdi (regs s) in
  let void o := Some (clobber junk64 s, heap, o) in
  match index_of n testlib_names 0 with
  | Some 0 => void [a mod 256; 10]
  | Some 1 => void (int_arg a)
  | Some 2 => void (print_unsigned (wrapu 32 a) ++ [10])
  | Some 3 => void (print_signed (wraps 64 a) ++ [10])
  | Some 4 => void (print_unsigned (wrapu 64 a) ++ [10])
  | Some 5 => Some (clobber (wrapu 32 a) s, heap, int_arg a)
  | Some 6 => void (flat_map int_arg (arg_regs s ++ stack_arg 0 s))
  | Some 7 => void (flat_map int_arg (arg_regs s ++ stack_arg 0 s ++ stack_arg 1 s))
  | Some 8 => void (c_string 1000 (mem s) a ++ [10])
  | Some 9 => void [10]
  | Some 10 =>
      match store (mem s) S4 heap a with
      | Some m =>
          match store m S8 (heap + 8) 0 with
          | Some m => Some (clobber heap (set_mem s m), heap + 16, [])
          | None => None
          end
      | None => None
      end
  | Some 11 => void []
  | Some 12 => Some (clobber heap s, heap + 16 * ((wraps 32 a + 15) / 16), [])
  | Some 13 => void []
  | Some 14 => void (c_string 1000 (mem s) a ++ [10])
  | Some 15 => Some (clobber (wrapu 32 (str_cmp (c_string 1000 (mem s) a) (c_string 1000 (mem s) (rsi (regs s))))) s, heap, [])
  | _ => None
  end.

(** compile, assemble, link with testlib and run *)
Definition run_source (fuel : Z) (src : list Z) : res result :=
  do codes <- compile_codes src;
  match decode_items codes with
  | None => Err
  | Some items =>
      match load_program items 170 with
      | None => Err
      | Some im => Ok (run im testlib_names testlib (Z.to_nat fuel))
      end
  end.
Definition output_of (r : res result) : option (list Z) := match r with Ok (Exit _ o) => Some o | _ => None end.
