(** The end-to-end tests of /repo/test-fixtures against the C semantics: the typed tree of each main.c, run by
    [CProgram.run_program] with the test library, prints expected.txt. These are tests of the semantics, not properties. *)
From Verif Require Import Base X64Isa CSem CProgram DriverModel TestLib TestFixtures.
Open Scope Z_scope.

Definition say (W : world) (o : list Z) : world := mkworld (w_mem W) (w_heap W) (w_out W ++ o).
(** /repo/test-fixtures/_/testlib.c, and the functions of the C library that the tests declare *)
Definition c_testlib (n : name) (args : list Z) (W : world) : option (Z * world) :=
  let a := nth 0 args 0 in
  let m := w_mem W in
  match Machine.index_of n testlib_names 0 with
  | Some 0 => Some (0, say W [a mod 256; 10])
  | Some 1 => Some (0, say W (int_arg a))
  | Some 2 => Some (0, say W (print_unsigned (wrapu 32 a) ++ [10]))
  | Some 3 => Some (0, say W (print_signed (wraps 64 a) ++ [10]))
  | Some 4 => Some (0, say W (print_unsigned (wrapu 64 a) ++ [10]))
  | Some 5 => Some (wrapu 32 a, say W (int_arg a))
  | Some 6 | Some 7 => Some (0, say W (flat_map int_arg args))
  | Some 8 | Some 14 => Some (0, say W (c_string 1000 m a ++ [10]))
  | Some 9 => Some (0, say W [10])
  | Some 10 =>
      match store m S4 (w_heap W) a with
      | Some m => match store m S8 (w_heap W + 8) 0 with
                  | Some m => Some (w_heap W, mkworld m (w_heap W + 16) (w_out W))
                  | None => None end
      | None => None
      end
  | Some 11 | Some 13 => Some (0, W)
  | Some 12 => Some (w_heap W, mkworld m (w_heap W + 16 * ((wraps 32 a + 15) / 16)) (w_out W))
  | Some 15 => Some (wrapu 32 (str_cmp (c_string 1000 m a) (c_string 1000 m (nth 1 args 0))), W)
  | _ => None
  end.
Definition c_run (fuel : Z) (src : list Z) : res (Z * list Z) :=
  do t <- lex_source src; do a <- parse_tokens t; do s <- resolve a;
  run_program testlib_names c_testlib (Z.to_nat fuel) s.
Definition c_output (src : list Z) : option (list Z) := match c_run 100000 src with Ok (_, o) => Some o | _ => None end.
Example c_arithmetic : c_output src_arithmetic = output_of (run_source 100000 src_arithmetic) /\ c_output src_arithmetic <> None. Proof. split; [vm_compute; reflexivity | vm_compute; discriminate]. Qed.
Example c_array : c_output src_array = output_of (run_source 100000 src_array) /\ c_output src_array <> None. Proof. split; [vm_compute; reflexivity | vm_compute; discriminate]. Qed.
Example c_assignment : c_output src_assignment = output_of (run_source 100000 src_assignment) /\ c_output src_assignment <> None. Proof. split; [vm_compute; reflexivity | vm_compute; discriminate]. Qed.
Example c_bitwise : c_output src_bitwise = output_of (run_source 100000 src_bitwise) /\ c_output src_bitwise <> None. Proof. split; [vm_compute; reflexivity | vm_compute; discriminate]. Qed.
Example c_char : c_output src_char = output_of (run_source 100000 src_char) /\ c_output src_char <> None. Proof. split; [vm_compute; reflexivity | vm_compute; discriminate]. Qed.
Example c_comparison : c_output src_comparison = output_of (run_source 100000 src_comparison) /\ c_output src_comparison <> None. Proof. split; [vm_compute; reflexivity | vm_compute; discriminate]. Qed.
Example c_compstmt : c_output src_compstmt = output_of (run_source 100000 src_compstmt) /\ c_output src_compstmt <> None. Proof. split; [vm_compute; reflexivity | vm_compute; discriminate]. Qed.
Example c_condition : c_output src_condition = output_of (run_source 100000 src_condition) /\ c_output src_condition <> None. Proof. split; [vm_compute; reflexivity | vm_compute; discriminate]. Qed.
Example c_enum : c_output src_enum = output_of (run_source 100000 src_enum) /\ c_output src_enum <> None. Proof. split; [vm_compute; reflexivity | vm_compute; discriminate]. Qed.
Example c_exprstmt : c_output src_exprstmt = output_of (run_source 100000 src_exprstmt) /\ c_output src_exprstmt <> None. Proof. split; [vm_compute; reflexivity | vm_compute; discriminate]. Qed.
Example c_for : c_output src_for = output_of (run_source 100000 src_for) /\ c_output src_for <> None. Proof. split; [vm_compute; reflexivity | vm_compute; discriminate]. Qed.
Example c_functioncall : c_output src_functioncall = output_of (run_source 100000 src_functioncall) /\ c_output src_functioncall <> None. Proof. split; [vm_compute; reflexivity | vm_compute; discriminate]. Qed.
Example c_functiondef : c_output src_functiondef = output_of (run_source 100000 src_functiondef) /\ c_output src_functiondef <> None. Proof. split; [vm_compute; reflexivity | vm_compute; discriminate]. Qed.
Example c_functionptr : c_output src_functionptr = output_of (run_source 100000 src_functionptr) /\ c_output src_functionptr <> None. Proof. split; [vm_compute; reflexivity | vm_compute; discriminate]. Qed.
Example c_globalvar : c_output src_globalvar = output_of (run_source 100000 src_globalvar) /\ c_output src_globalvar <> None. Proof. split; [vm_compute; reflexivity | vm_compute; discriminate]. Qed.
Example c_ifelse : c_output src_ifelse = output_of (run_source 100000 src_ifelse) /\ c_output src_ifelse <> None. Proof. split; [vm_compute; reflexivity | vm_compute; discriminate]. Qed.
Example c_incdec : c_output src_incdec = output_of (run_source 100000 src_incdec) /\ c_output src_incdec <> None. Proof. split; [vm_compute; reflexivity | vm_compute; discriminate]. Qed.
Example c_initializer : c_output src_initializer = output_of (run_source 100000 src_initializer) /\ c_output src_initializer <> None. Proof. split; [vm_compute; reflexivity | vm_compute; discriminate]. Qed.
Example c_int : c_output src_int = output_of (run_source 100000 src_int) /\ c_output src_int <> None. Proof. split; [vm_compute; reflexivity | vm_compute; discriminate]. Qed.
Example c_logical : c_output src_logical = output_of (run_source 100000 src_logical) /\ c_output src_logical <> None. Proof. split; [vm_compute; reflexivity | vm_compute; discriminate]. Qed.
Example c_pointer : c_output src_pointer = output_of (run_source 100000 src_pointer) /\ c_output src_pointer <> None. Proof. split; [vm_compute; reflexivity | vm_compute; discriminate]. Qed.
Example c_stringliteral : c_output src_stringliteral = output_of (run_source 100000 src_stringliteral) /\ c_output src_stringliteral <> None. Proof. split; [vm_compute; reflexivity | vm_compute; discriminate]. Qed.
Example c_struct : c_output src_struct = output_of (run_source 100000 src_struct) /\ c_output src_struct <> None. Proof. split; [vm_compute; reflexivity | vm_compute; discriminate]. Qed.
Example c_switch : c_output src_switch = output_of (run_source 100000 src_switch) /\ c_output src_switch <> None. Proof. split; [vm_compute; reflexivity | vm_compute; discriminate]. Qed.
Example c_typedef : c_output src_typedef = output_of (run_source 100000 src_typedef) /\ c_output src_typedef <> None. Proof. split; [vm_compute; reflexivity | vm_compute; discriminate]. Qed.
Example c_void : c_output src_void = output_of (run_source 100000 src_void) /\ c_output src_void <> None. Proof. split; [vm_compute; reflexivity | vm_compute; discriminate]. Qed.
Example c_while : c_output src_while = output_of (run_source 100000 src_while) /\ c_output src_while <> None. Proof. split; [vm_compute; reflexivity | vm_compute; discriminate]. Qed.
Example c_x_linkedlist : c_output src_x_linkedlist = output_of (run_source 100000 src_x_linkedlist) /\ c_output src_x_linkedlist <> None. Proof. split; [vm_compute; reflexivity | vm_compute; discriminate]. Qed.
Example c_x_mergesort : c_output src_x_mergesort = output_of (run_source 100000 src_x_mergesort) /\ c_output src_x_mergesort <> None. Proof. split; [vm_compute; reflexivity | vm_compute; discriminate]. Qed.
Example c_x_quicksort : c_output src_x_quicksort = output_of (run_source 100000 src_x_quicksort) /\ c_output src_x_quicksort <> None. Proof. split; [vm_compute; reflexivity | vm_compute; discriminate]. Qed.
