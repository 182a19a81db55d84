(** The end-to-end tests of /repo/test-fixtures, read by tools/gen_fixtures.py: the model of the compiler is run on
    main.c, its output is assembled and run on the machine of X64Isa.v, linked with TestLib.v, and what it prints
    is compared with expected.txt. These are tests of the models, not properties. *)
From Verif Require Import Base X64Isa Machine TestLib.
Open Scope Z_scope.

(** test-fixtures/arithmetic *)
Definition src_arithmetic : list Z :=
  [118; 111; 105; 100; 32; 112; 117; 116; 95; 105; 110; 116; 40; 105; 110; 116; 32; 120; 41; 59; 10; 118; 111; 105; 100; 32; 112; 117; 116; 95; 117; 110; 115; 105; 103; 110; 101; 100; 95; 105; 110; 116; 40; 117; 110; 115; 105; 103; 110; 101; 100; 32; 105; 110; 116; 32; 120; 41; 59; 10; 118; 111; 105; 100; 32; 112; 117; 116; 95; 108; 111; 110; 103; 95; 108; 111; 110; 103; 40; 108; 111; 110; 103; 32; 108; 111; 110; 103; 32; 120; 41; 59; 10; 118; 111; 105; 100; 32; 112; 117; 116; 95; 117; 110; 115; 105; 103; 110; 101; 100; 95; 108; 111; 110; 103; 95; 108; 111; 110; 103; 40; 117; 110; 115; 105; 103; 110; 101; 100; 32; 108; 111; 110; 103; 32; 108; 111; 110; 103; 32; 120; 41; 59; 10; 118; 111; 105; 100; 32; 112; 117; 116; 95; 98; 108; 97; 110; 107; 95; 108; 105; 110; 101; 40; 118; 111; 105; 100; 41; 59; 10; 10; 118; 111; 105; 100; 32; 105; 110; 116; 95; 97; 114; 105; 116; 104; 109; 101; 116; 105; 99; 40; 118; 111; 105; 100; 41; 32; 123; 10; 32; 32; 32; 32; 112; 117; 116; 95; 105; 110; 116; 40; 49; 32; 43; 32; 50; 41; 59; 10; 32; 32; 32; 32; 112; 117; 116; 95; 105; 110; 116; 40; 51; 32; 45; 32; 56; 41; 59; 10; 32; 32; 32; 32; 112; 117; 116; 95; 105; 110; 116; 40; 52; 32; 42; 32; 50; 41; 59; 10; 32; 32; 32; 32; 112; 117; 116; 95; 105; 110; 116; 40; 49; 55; 32; 47; 32; 52; 41; 59; 10; 32; 32; 32; 32; 112; 117; 116; 95; 98; 108; 97; 110; 107; 95; 108; 105; 110; 101; 40; 41; 59; 10; 125; 10; 10; 118; 111; 105; 100; 32; 117; 110; 115; 105; 103; 110; 101; 100; 95; 105; 110; 116; 95; 97; 114; 105; 116; 104; 109; 101; 116; 105; 99; 40; 118; 111; 105; 100; 41; 32; 123; 10; 32; 32; 32; 32; 112; 117; 116; 95; 117; 110; 115; 105; 103; 110; 101; 100; 95; 105; 110; 116; 40; 49; 32; 43; 32; 50; 117; 41; 59; 10; 32; 32; 32; 32; 112; 117; 116; 95; 117; 110; 115; 105; 103; 110; 101; 100; 95; 105; 110; 116; 40; 56; 117; 32; 45; 32; 51; 41; 59; 10; 32; 32; 32; 32; 112; 117; 116; 95; 117; 110; 115; 105; 103; 110; 101; 100; 95; 105; 110; 116; 40; 52; 117; 32; 42; 32; 50; 41; 59; 10; 32; 32; 32; 32; 112; 117; 116; 95; 117; 110; 115; 105; 103; 110; 101; 100; 95; 105; 110; 116; 40; 49; 55; 117; 32; 47; 32; 52; 117; 41; 59; 10; 32; 32; 32; 32; 112; 117; 116; 95; 98; 108; 97; 110; 107; 95; 108; 105; 110; 101; 40; 41; 59; 10; 125; 10; 10; 118; 111; 105; 100; 32; 108; 111; 110; 103; 95; 108; 111; 110; 103; 95; 97; 114; 105; 116; 104; 109; 101; 116; 105; 99; 40; 118; 111; 105; 100; 41; 32; 123; 10; 32; 32; 32; 32; 112; 117; 116; 95; 108; 111; 110; 103; 95; 108; 111; 110; 103; 40; 49; 32; 43; 32; 50; 108; 108; 41; 59; 10; 32; 32; 32; 32; 112; 117; 116; 95; 108; 111; 110; 103; 95; 108; 111; 110; 103; 40; 51; 108; 108; 32; 45; 32; 56; 117; 41; 59; 10; 32; 32; 32; 32; 112; 117; 116; 95; 108; 111; 110; 103; 95; 108; 111; 110; 103; 40; 52; 32; 42; 32; 50; 108; 108; 41; 59; 10; 32; 32; 32; 32; 112; 117; 116; 95; 108; 111; 110; 103; 95; 108; 111; 110; 103; 40; 49; 55; 117; 32; 47; 32; 52; 108; 108; 41; 59; 10; 32; 32; 32; 32; 112; 117; 116; 95; 98; 108; 97; 110; 107; 95; 108; 105; 110; 101; 40; 41; 59; 10; 125; 10; 10; 118; 111; 105; 100; 32; 117; 110; 115; 105; 103; 110; 101; 100; 95; 108; 111; 110; 103; 95; 108; 111; 110; 103; 95; 97; 114; 105; 116; 104; 109; 101; 116; 105; 99; 40; 118; 111; 105; 100; 41; 32; 123; 10; 32; 32; 32; 32; 112; 117; 116; 95; 117; 110; 115; 105; 103; 110; 101; 100; 95; 108; 111; 110; 103; 95; 108; 111; 110; 103; 40; 49; 32; 43; 32; 50; 117; 108; 108; 41; 59; 10; 32; 32; 32; 32; 112; 117; 116; 95; 117; 110; 115; 105; 103; 110; 101; 100; 95; 108; 111; 110; 103; 95; 108; 111; 110; 103; 40; 56; 117; 108; 108; 32; 45; 32; 51; 41; 59; 10; 32; 32; 32; 32; 112; 117; 116; 95; 117; 110; 115; 105; 103; 110; 101; 100; 95; 108; 111; 110; 103; 95; 108; 111; 110; 103; 40; 52; 117; 108; 108; 32; 42; 32; 50; 41; 59; 10; 32; 32; 32; 32; 112; 117; 116; 95; 117; 110; 115; 105; 103; 110; 101; 100; 95; 108; 111; 110; 103; 95; 108; 111; 110; 103; 40; 49; 55; 117; 32; 47; 32; 52; 117; 108; 108; 41; 59; 10; 32; 32; 32; 32; 112; 117; 116; 95; 98; 108; 97; 110; 107; 95; 108; 105; 110; 101; 40; 41; 59; 10; 125; 10; 10; 105; 110; 116; 32; 109; 97; 105; 110; 40; 118; 111; 105; 100; 41; 32; 123; 10; 32; 32; 32; 32; 105; 110; 116; 95; 97; 114; 105; 116; 104; 109; 101; 116; 105; 99; 40; 41; 59; 10; 32; 32; 32; 32; 117; 110; 115; 105; 103; 110; 101; 100; 95; 105; 110; 116; 95; 97; 114; 105; 116; 104; 109; 101; 116; 105; 99; 40; 41; 59; 10; 32; 32; 32; 32; 108; 111; 110; 103; 95; 108; 111; 110; 103; 95; 97; 114; 105; 116; 104; 109; 101; 116; 105; 99; 40; 41; 59; 10; 32; 32; 32; 32; 117; 110; 115; 105; 103; 110; 101; 100; 95; 108; 111; 110; 103; 95; 108; 111; 110; 103; 95; 97; 114; 105; 116; 104; 109; 101; 116; 105; 99; 40; 41; 59; 10; 32; 32; 32; 32; 114; 101; 116; 117; 114; 110; 32; 48; 59; 10; 125; 10].
Example fixture_arithmetic_ok : output_of (run_source 100000 src_arithmetic) = Some
  [51; 10; 45; 53; 10; 56; 10; 52; 10; 10; 51; 10; 53; 10; 56; 10; 52; 10; 10; 51; 10; 45; 53; 10; 56; 10; 52; 10; 10; 51; 10; 53; 10; 56; 10; 52; 10; 10].
Proof. vm_compute. reflexivity. Qed.
(** test-fixtures/array *)
Definition src_array : list Z :=
  [118; 111; 105; 100; 32; 112; 117; 116; 95; 105; 110; 116; 40; 105; 110; 116; 32; 120; 41; 59; 10; 118; 111; 105; 100; 32; 112; 117; 116; 95; 98; 108; 97; 110; 107; 95; 108; 105; 110; 101; 40; 118; 111; 105; 100; 41; 59; 10; 10; 105; 110; 116; 32; 115; 117; 109; 40; 105; 110; 116; 32; 97; 91; 53; 93; 41; 32; 123; 10; 32; 32; 32; 32; 114; 101; 116; 117; 114; 110; 32; 97; 91; 48; 93; 32; 43; 32; 97; 91; 49; 93; 32; 43; 32; 97; 91; 50; 93; 32; 43; 32; 97; 91; 51; 93; 32; 43; 32; 97; 91; 52; 93; 59; 10; 125; 10; 10; 105; 110; 116; 32; 109; 97; 105; 110; 40; 118; 111; 105; 100; 41; 32; 123; 10; 32; 32; 32; 32; 105; 110; 116; 32; 97; 91; 53; 93; 59; 10; 32; 32; 32; 32; 97; 91; 48; 93; 32; 61; 32; 51; 59; 10; 32; 32; 32; 32; 97; 91; 49; 93; 32; 61; 32; 97; 91; 48; 93; 32; 43; 32; 50; 59; 10; 32; 32; 32; 32; 97; 91; 50; 93; 32; 61; 32; 97; 91; 48; 93; 32; 43; 32; 97; 91; 49; 93; 59; 10; 32; 32; 32; 32; 42; 40; 97; 32; 43; 32; 51; 41; 32; 61; 32; 42; 97; 32; 45; 32; 50; 59; 10; 32; 32; 32; 32; 42; 40; 97; 32; 43; 32; 52; 41; 32; 61; 32; 42; 40; 97; 32; 43; 32; 51; 41; 32; 45; 32; 42; 97; 59; 10; 10; 32; 32; 32; 32; 112; 117; 116; 95; 105; 110; 116; 40; 42; 97; 41; 59; 10; 32; 32; 32; 32; 112; 117; 116; 95; 105; 110; 116; 40; 42; 40; 97; 32; 43; 32; 49; 41; 41; 59; 10; 32; 32; 32; 32; 112; 117; 116; 95; 105; 110; 116; 40; 42; 40; 97; 32; 43; 32; 50; 41; 41; 59; 10; 32; 32; 32; 32; 112; 117; 116; 95; 105; 110; 116; 40; 97; 91; 51; 93; 41; 59; 10; 32; 32; 32; 32; 112; 117; 116; 95; 105; 110; 116; 40; 97; 91; 52; 93; 41; 59; 10; 32; 32; 32; 32; 112; 117; 116; 95; 105; 110; 116; 40; 38; 97; 91; 52; 93; 32; 45; 32; 38; 97; 91; 49; 93; 41; 59; 10; 32; 32; 32; 32; 112; 117; 116; 95; 98; 108; 97; 110; 107; 95; 108; 105; 110; 101; 40; 41; 59; 10; 10; 32; 32; 32; 32; 105; 110; 116; 32; 98; 91; 51; 93; 59; 10; 32; 32; 32; 32; 48; 32; 91; 98; 93; 32; 61; 32; 49; 48; 59; 10; 32; 32; 32; 32; 49; 32; 91; 98; 93; 32; 61; 32; 49; 49; 59; 10; 32; 32; 32; 32; 50; 32; 91; 98; 93; 32; 61; 32; 49; 50; 59; 10; 32; 32; 32; 32; 112; 117; 116; 95; 105; 110; 116; 40; 48; 32; 91; 98; 93; 41; 59; 10; 32; 32; 32; 32; 112; 117; 116; 95; 105; 110; 116; 40; 49; 32; 91; 98; 93; 41; 59; 10; 32; 32; 32; 32; 112; 117; 116; 95; 105; 110; 116; 40; 50; 32; 91; 98; 93; 41; 59; 10; 32; 32; 32; 32; 112; 117; 116; 95; 98; 108; 97; 110; 107; 95; 108; 105; 110; 101; 40; 41; 59; 10; 10; 32; 32; 32; 32; 105; 110; 116; 32; 99; 91; 51; 93; 91; 51; 93; 59; 10; 32; 32; 32; 32; 99; 91; 49; 93; 91; 50; 93; 32; 61; 32; 51; 59; 10; 32; 32; 32; 32; 112; 117; 116; 95; 105; 110; 116; 40; 99; 91; 49; 93; 91; 50; 93; 41; 59; 10; 32; 32; 32; 32; 112; 117; 116; 95; 98; 108; 97; 110; 107; 95; 108; 105; 110; 101; 40; 41; 59; 10; 10; 32; 32; 32; 32; 105; 110; 116; 32; 100; 91; 53; 93; 32; 61; 32; 123; 49; 44; 32; 50; 44; 32; 51; 44; 32; 53; 44; 32; 56; 125; 59; 10; 32; 32; 32; 32; 112; 117; 116; 95; 105; 110; 116; 40; 115; 117; 109; 40; 100; 41; 41; 59; 10; 10; 32; 32; 32; 32; 114; 101; 116; 117; 114; 110; 32; 48; 59; 10; 125; 10].
Example fixture_array_ok : output_of (run_source 100000 src_array) = Some
  [51; 10; 53; 10; 56; 10; 49; 10; 45; 50; 10; 51; 10; 10; 49; 48; 10; 49; 49; 10; 49; 50; 10; 10; 51; 10; 10; 49; 57; 10].
Proof. vm_compute. reflexivity. Qed.
(** test-fixtures/assignment *)
Definition src_assignment : list Z :=
  [118; 111; 105; 100; 32; 112; 117; 116; 95; 105; 110; 116; 40; 105; 110; 116; 32; 120; 41; 59; 10; 118; 111; 105; 100; 32; 112; 117; 116; 95; 98; 108; 97; 110; 107; 95; 108; 105; 110; 101; 40; 118; 111; 105; 100; 41; 59; 10; 10; 118; 111; 105; 100; 32; 115; 105; 109; 112; 108; 101; 95; 97; 115; 115; 105; 103; 110; 109; 101; 110; 116; 40; 118; 111; 105; 100; 41; 32; 123; 10; 32; 32; 32; 32; 105; 110; 116; 32; 102; 105; 114; 115; 116; 44; 32; 115; 101; 99; 111; 110; 100; 44; 32; 116; 104; 105; 114; 100; 59; 10; 10; 32; 32; 32; 32; 102; 105; 114; 115; 116; 32; 61; 32; 51; 59; 10; 32; 32; 32; 32; 115; 101; 99; 111; 110; 100; 32; 61; 32; 102; 105; 114; 115; 116; 32; 45; 32; 49; 59; 10; 32; 32; 32; 32; 116; 104; 105; 114; 100; 32; 61; 32; 102; 105; 114; 115; 116; 32; 42; 32; 115; 101; 99; 111; 110; 100; 59; 10; 10; 32; 32; 32; 32; 112; 117; 116; 95; 105; 110; 116; 40; 102; 105; 114; 115; 116; 41; 59; 10; 32; 32; 32; 32; 112; 117; 116; 95; 105; 110; 116; 40; 115; 101; 99; 111; 110; 100; 41; 59; 10; 32; 32; 32; 32; 112; 117; 116; 95; 105; 110; 116; 40; 116; 104; 105; 114; 100; 41; 59; 10; 32; 32; 32; 32; 112; 117; 116; 95; 105; 110; 116; 40; 116; 104; 105; 114; 100; 32; 45; 32; 40; 102; 105; 114; 115; 116; 32; 45; 32; 115; 101; 99; 111; 110; 100; 41; 41; 59; 10; 32; 32; 32; 32; 112; 117; 116; 95; 98; 108; 97; 110; 107; 95; 108; 105; 110; 101; 40; 41; 59; 10; 10; 32; 32; 32; 32; 116; 104; 105; 114; 100; 32; 61; 32; 40; 102; 105; 114; 115; 116; 32; 61; 32; 57; 41; 32; 45; 32; 40; 115; 101; 99; 111; 110; 100; 32; 61; 32; 49; 41; 59; 10; 32; 32; 32; 32; 112; 117; 116; 95; 105; 110; 116; 40; 102; 105; 114; 115; 116; 41; 59; 10; 32; 32; 32; 32; 112; 117; 116; 95; 105; 110; 116; 40; 115; 101; 99; 111; 110; 100; 41; 59; 10; 32; 32; 32; 32; 112; 117; 116; 95; 105; 110; 116; 40; 116; 104; 105; 114; 100; 41; 59; 10; 32; 32; 32; 32; 112; 117; 116; 95; 98; 108; 97; 110; 107; 95; 108; 105; 110; 101; 40; 41; 59; 10; 125; 10; 10; 118; 111; 105; 100; 32; 99; 111; 109; 112; 111; 117; 110; 100; 95; 97; 115; 115; 105; 103; 110; 109; 101; 110; 116; 40; 118; 111; 105; 100; 41; 32; 123; 10; 32; 32; 32; 32; 105; 110; 116; 32; 120; 59; 10; 10; 32; 32; 32; 32; 120; 32; 61; 32; 51; 59; 10; 32; 32; 32; 32; 112; 117; 116; 95; 105; 110; 116; 40; 120; 32; 43; 61; 32; 50; 41; 59; 10; 32; 32; 32; 32; 112; 117; 116; 95; 105; 110; 116; 40; 120; 41; 59; 10; 32; 32; 32; 32; 112; 117; 116; 95; 98; 108; 97; 110; 107; 95; 108; 105; 110; 101; 40; 41; 59; 10; 10; 32; 32; 32; 32; 120; 32; 61; 32; 51; 59; 10; 32; 32; 32; 32; 112; 117; 116; 95; 105; 110; 116; 40; 120; 32; 45; 61; 32; 49; 41; 59; 10; 32; 32; 32; 32; 112; 117; 116; 95; 105; 110; 116; 40; 120; 41; 59; 10; 32; 32; 32; 32; 112; 117; 116; 95; 98; 108; 97; 110; 107; 95; 108; 105; 110; 101; 40; 41; 59; 10; 10; 32; 32; 32; 32; 120; 32; 61; 32; 51; 59; 10; 32; 32; 32; 32; 112; 117; 116; 95; 105; 110; 116; 40; 120; 32; 42; 61; 32; 50; 41; 59; 10; 32; 32; 32; 32; 112; 117; 116; 95; 105; 110; 116; 40; 120; 41; 59; 10; 32; 32; 32; 32; 112; 117; 116; 95; 98; 108; 97; 110; 107; 95; 108; 105; 110; 101; 40; 41; 59; 10; 10; 32; 32; 32; 32; 120; 32; 61; 32; 51; 59; 10; 32; 32; 32; 32; 112; 117; 116; 95; 105; 110; 116; 40; 120; 32; 47; 61; 32; 50; 41; 59; 10; 32; 32; 32; 32; 112; 117; 116; 95; 105; 110; 116; 40; 120; 41; 59; 10; 32; 32; 32; 32; 112; 117; 116; 95; 98; 108; 97; 110; 107; 95; 108; 105; 110; 101; 40; 41; 59; 10; 10; 32; 32; 32; 32; 120; 32; 61; 32; 51; 59; 10; 32; 32; 32; 32; 112; 117; 116; 95; 105; 110; 116; 40; 120; 32; 37; 61; 32; 51; 41; 59; 10; 32; 32; 32; 32; 112; 117; 116; 95; 105; 110; 116; 40; 120; 41; 59; 10; 32; 32; 32; 32; 112; 117; 116; 95; 98; 108; 97; 110; 107; 95; 108; 105; 110; 101; 40; 41; 59; 10; 10; 32; 32; 32; 32; 120; 32; 61; 32; 51; 59; 10; 32; 32; 32; 32; 112; 117; 116; 95; 105; 110; 116; 40; 120; 32; 38; 61; 32; 49; 41; 59; 10; 32; 32; 32; 32; 112; 117; 116; 95; 105; 110; 116; 40; 120; 41; 59; 10; 32; 32; 32; 32; 112; 117; 116; 95; 98; 108; 97; 110; 107; 95; 108; 105; 110; 101; 40; 41; 59; 10; 10; 32; 32; 32; 32; 120; 32; 61; 32; 51; 59; 10; 32; 32; 32; 32; 112; 117; 116; 95; 105; 110; 116; 40; 120; 32; 124; 61; 32; 49; 41; 59; 10; 32; 32; 32; 32; 112; 117; 116; 95; 105; 110; 116; 40; 120; 41; 59; 10; 32; 32; 32; 32; 112; 117; 116; 95; 98; 108; 97; 110; 107; 95; 108; 105; 110; 101; 40; 41; 59; 10; 10; 32; 32; 32; 32; 120; 32; 61; 32; 51; 59; 10; 32; 32; 32; 32; 112; 117; 116; 95; 105; 110; 116; 40; 120; 32; 94; 61; 32; 49; 41; 59; 10; 32; 32; 32; 32; 112; 117; 116; 95; 105; 110; 116; 40; 120; 41; 59; 10; 32; 32; 32; 32; 112; 117; 116; 95; 98; 108; 97; 110; 107; 95; 108; 105; 110; 101; 40; 41; 59; 10; 125; 10; 10; 105; 110; 116; 32; 109; 97; 105; 110; 40; 118; 111; 105; 100; 41; 32; 123; 10; 32; 32; 32; 32; 115; 105; 109; 112; 108; 101; 95; 97; 115; 115; 105; 103; 110; 109; 101; 110; 116; 40; 41; 59; 10; 32; 32; 32; 32; 99; 111; 109; 112; 111; 117; 110; 100; 95; 97; 115; 115; 105; 103; 110; 109; 101; 110; 116; 40; 41; 59; 10; 10; 32; 32; 32; 32; 114; 101; 116; 117; 114; 110; 32; 48; 59; 10; 125; 10].
Example fixture_assignment_ok : output_of (run_source 100000 src_assignment) = Some
  [51; 10; 50; 10; 54; 10; 53; 10; 10; 57; 10; 49; 10; 56; 10; 10; 53; 10; 53; 10; 10; 50; 10; 50; 10; 10; 54; 10; 54; 10; 10; 49; 10; 49; 10; 10; 48; 10; 48; 10; 10; 49; 10; 49; 10; 10; 51; 10; 51; 10; 10; 50; 10; 50; 10; 10].
Proof. vm_compute. reflexivity. Qed.
(** test-fixtures/bitwise *)
Definition src_bitwise : list Z :=
  [118; 111; 105; 100; 32; 112; 117; 116; 95; 105; 110; 116; 40; 105; 110; 116; 32; 120; 41; 59; 10; 118; 111; 105; 100; 32; 112; 117; 116; 95; 98; 108; 97; 110; 107; 95; 108; 105; 110; 101; 40; 118; 111; 105; 100; 41; 59; 10; 10; 105; 110; 116; 32; 109; 97; 105; 110; 40; 118; 111; 105; 100; 41; 32; 123; 10; 32; 32; 32; 32; 112; 117; 116; 95; 105; 110; 116; 40; 48; 120; 48; 32; 38; 32; 48; 120; 49; 41; 59; 10; 32; 32; 32; 32; 112; 117; 116; 95; 105; 110; 116; 40; 48; 120; 48; 32; 38; 32; 48; 120; 50; 41; 59; 10; 32; 32; 32; 32; 112; 117; 116; 95; 105; 110; 116; 40; 48; 120; 49; 32; 38; 32; 48; 120; 49; 41; 59; 10; 32; 32; 32; 32; 112; 117; 116; 95; 105; 110; 116; 40; 48; 120; 49; 32; 38; 32; 48; 120; 50; 41; 59; 10; 32; 32; 32; 32; 112; 117; 116; 95; 98; 108; 97; 110; 107; 95; 108; 105; 110; 101; 40; 41; 59; 10; 10; 32; 32; 32; 32; 112; 117; 116; 95; 105; 110; 116; 40; 48; 120; 48; 32; 124; 32; 48; 120; 49; 41; 59; 10; 32; 32; 32; 32; 112; 117; 116; 95; 105; 110; 116; 40; 48; 120; 48; 32; 124; 32; 48; 120; 50; 41; 59; 10; 32; 32; 32; 32; 112; 117; 116; 95; 105; 110; 116; 40; 48; 120; 49; 32; 124; 32; 48; 120; 49; 41; 59; 10; 32; 32; 32; 32; 112; 117; 116; 95; 105; 110; 116; 40; 48; 120; 49; 32; 124; 32; 48; 120; 50; 41; 59; 10; 32; 32; 32; 32; 112; 117; 116; 95; 98; 108; 97; 110; 107; 95; 108; 105; 110; 101; 40; 41; 59; 10; 10; 32; 32; 32; 32; 112; 117; 116; 95; 105; 110; 116; 40; 48; 120; 48; 32; 94; 32; 48; 120; 49; 41; 59; 10; 32; 32; 32; 32; 112; 117; 116; 95; 105; 110; 116; 40; 48; 120; 48; 32; 94; 32; 48; 120; 50; 41; 59; 10; 32; 32; 32; 32; 112; 117; 116; 95; 105; 110; 116; 40; 48; 120; 49; 32; 94; 32; 48; 120; 49; 41; 59; 10; 32; 32; 32; 32; 112; 117; 116; 95; 105; 110; 116; 40; 48; 120; 49; 32; 94; 32; 48; 120; 50; 41; 59; 10; 32; 32; 32; 32; 112; 117; 116; 95; 98; 108; 97; 110; 107; 95; 108; 105; 110; 101; 40; 41; 59; 10; 10; 32; 32; 32; 32; 112; 117; 116; 95; 105; 110; 116; 40; 126; 48; 120; 48; 41; 59; 10; 32; 32; 32; 32; 112; 117; 116; 95; 105; 110; 116; 40; 126; 48; 120; 49; 41; 59; 10; 32; 32; 32; 32; 112; 117; 116; 95; 105; 110; 116; 40; 126; 48; 120; 50; 41; 59; 10; 32; 32; 32; 32; 112; 117; 116; 95; 105; 110; 116; 40; 126; 48; 120; 51; 41; 59; 10; 32; 32; 32; 32; 112; 117; 116; 95; 98; 108; 97; 110; 107; 95; 108; 105; 110; 101; 40; 41; 59; 10; 10; 32; 32; 32; 32; 112; 117; 116; 95; 105; 110; 116; 40; 49; 32; 60; 60; 32; 53; 41; 59; 10; 32; 32; 32; 32; 112; 117; 116; 95; 105; 110; 116; 40; 51; 32; 60; 60; 32; 52; 41; 59; 10; 32; 32; 32; 32; 112; 117; 116; 95; 98; 108; 97; 110; 107; 95; 108; 105; 110; 101; 40; 41; 59; 10; 10; 32; 32; 32; 32; 112; 117; 116; 95; 105; 110; 116; 40; 54; 52; 32; 62; 62; 32; 53; 41; 59; 10; 32; 32; 32; 32; 112; 117; 116; 95; 105; 110; 116; 40; 49; 50; 56; 32; 62; 62; 32; 52; 41; 59; 10; 32; 32; 32; 32; 112; 117; 116; 95; 98; 108; 97; 110; 107; 95; 108; 105; 110; 101; 40; 41; 59; 10; 10; 32; 32; 32; 32; 114; 101; 116; 117; 114; 110; 32; 48; 59; 10; 125; 10].
Example fixture_bitwise_ok : output_of (run_source 100000 src_bitwise) = Some
  [48; 10; 48; 10; 49; 10; 48; 10; 10; 49; 10; 50; 10; 49; 10; 51; 10; 10; 49; 10; 50; 10; 48; 10; 51; 10; 10; 45; 49; 10; 45; 50; 10; 45; 51; 10; 45; 52; 10; 10; 51; 50; 10; 52; 56; 10; 10; 50; 10; 56; 10; 10].
Proof. vm_compute. reflexivity. Qed.
(** test-fixtures/char *)
Definition src_char : list Z :=
  [118; 111; 105; 100; 32; 112; 117; 116; 95; 99; 104; 97; 114; 40; 99; 104; 97; 114; 32; 99; 41; 59; 10; 118; 111; 105; 100; 32; 112; 117; 116; 95; 105; 110; 116; 40; 105; 110; 116; 32; 120; 41; 59; 10; 118; 111; 105; 100; 32; 112; 117; 116; 95; 115; 116; 114; 40; 99; 104; 97; 114; 42; 32; 120; 41; 59; 10; 10; 105; 110; 116; 32; 109; 97; 105; 110; 40; 118; 111; 105; 100; 41; 32; 123; 10; 32; 32; 32; 32; 99; 104; 97; 114; 32; 120; 32; 61; 32; 51; 48; 44; 32; 121; 32; 61; 32; 52; 48; 44; 32; 122; 32; 61; 32; 49; 48; 59; 10; 32; 32; 32; 32; 99; 104; 97; 114; 32; 119; 32; 61; 32; 40; 120; 32; 42; 32; 121; 41; 32; 47; 32; 122; 59; 10; 32; 32; 32; 32; 112; 117; 116; 95; 105; 110; 116; 40; 119; 41; 59; 10; 10; 32; 32; 32; 32; 99; 104; 97; 114; 32; 99; 49; 44; 32; 99; 50; 59; 10; 32; 32; 32; 32; 99; 49; 32; 61; 32; 39; 97; 39; 59; 10; 32; 32; 32; 32; 99; 50; 32; 61; 32; 39; 97; 98; 39; 59; 10; 32; 32; 32; 32; 112; 117; 116; 95; 99; 104; 97; 114; 40; 99; 49; 41; 59; 10; 32; 32; 32; 32; 112; 117; 116; 95; 99; 104; 97; 114; 40; 99; 50; 41; 59; 10; 32; 32; 32; 32; 112; 117; 116; 95; 105; 110; 116; 40; 99; 49; 32; 61; 61; 32; 99; 50; 41; 59; 10; 32; 32; 32; 32; 99; 49; 32; 61; 32; 39; 98; 39; 59; 10; 32; 32; 32; 32; 99; 50; 32; 61; 32; 39; 98; 97; 39; 59; 10; 32; 32; 32; 32; 112; 117; 116; 95; 99; 104; 97; 114; 40; 99; 49; 41; 59; 10; 32; 32; 32; 32; 112; 117; 116; 95; 99; 104; 97; 114; 40; 99; 50; 41; 59; 10; 32; 32; 32; 32; 112; 117; 116; 95; 105; 110; 116; 40; 99; 49; 32; 61; 61; 32; 99; 50; 41; 59; 10; 10; 32; 32; 32; 32; 99; 104; 97; 114; 32; 110; 117; 108; 108; 95; 99; 104; 97; 114; 32; 61; 32; 39; 92; 48; 39; 59; 10; 32; 32; 32; 32; 112; 117; 116; 95; 105; 110; 116; 40; 110; 117; 108; 108; 95; 99; 104; 97; 114; 41; 59; 10; 10; 32; 32; 32; 32; 99; 104; 97; 114; 32; 115; 91; 52; 93; 32; 61; 32; 123; 39; 97; 39; 44; 32; 39; 98; 39; 44; 32; 39; 99; 39; 44; 32; 39; 92; 48; 39; 125; 59; 10; 32; 32; 32; 32; 112; 117; 116; 95; 115; 116; 114; 40; 115; 41; 59; 10; 10; 32; 32; 32; 32; 114; 101; 116; 117; 114; 110; 32; 48; 59; 10; 125; 10].
Example fixture_char_ok : output_of (run_source 100000 src_char) = Some
  [49; 50; 48; 10; 97; 10; 97; 10; 49; 10; 98; 10; 98; 10; 49; 10; 48; 10; 97; 98; 99; 10].
Proof. vm_compute. reflexivity. Qed.
(** test-fixtures/comparison *)
Definition src_comparison : list Z :=
  [118; 111; 105; 100; 32; 112; 117; 116; 95; 105; 110; 116; 40; 105; 110; 116; 32; 120; 41; 59; 10; 118; 111; 105; 100; 32; 112; 117; 116; 95; 98; 108; 97; 110; 107; 95; 108; 105; 110; 101; 40; 118; 111; 105; 100; 41; 59; 10; 10; 118; 111; 105; 100; 32; 101; 113; 117; 97; 108; 105; 116; 121; 40; 118; 111; 105; 100; 41; 32; 123; 10; 32; 32; 32; 32; 112; 117; 116; 95; 105; 110; 116; 40; 53; 32; 61; 61; 32; 53; 41; 59; 10; 32; 32; 32; 32; 112; 117; 116; 95; 105; 110; 116; 40; 53; 32; 61; 61; 32; 52; 41; 59; 10; 32; 32; 32; 32; 112; 117; 116; 95; 98; 108; 97; 110; 107; 95; 108; 105; 110; 101; 40; 41; 59; 10; 10; 32; 32; 32; 32; 112; 117; 116; 95; 105; 110; 116; 40; 53; 32; 33; 61; 32; 53; 41; 59; 10; 32; 32; 32; 32; 112; 117; 116; 95; 105; 110; 116; 40; 53; 32; 33; 61; 32; 52; 41; 59; 10; 32; 32; 32; 32; 112; 117; 116; 95; 98; 108; 97; 110; 107; 95; 108; 105; 110; 101; 40; 41; 59; 10; 125; 10; 10; 118; 111; 105; 100; 32; 114; 101; 108; 97; 116; 105; 111; 110; 97; 108; 40; 118; 111; 105; 100; 41; 32; 123; 10; 32; 32; 32; 32; 112; 117; 116; 95; 105; 110; 116; 40; 53; 32; 60; 32; 54; 41; 59; 10; 32; 32; 32; 32; 112; 117; 116; 95; 105; 110; 116; 40; 53; 32; 60; 32; 53; 41; 59; 10; 32; 32; 32; 32; 112; 117; 116; 95; 105; 110; 116; 40; 53; 32; 60; 32; 52; 41; 59; 10; 32; 32; 32; 32; 112; 117; 116; 95; 98; 108; 97; 110; 107; 95; 108; 105; 110; 101; 40; 41; 59; 10; 10; 32; 32; 32; 32; 112; 117; 116; 95; 105; 110; 116; 40; 53; 32; 62; 32; 54; 41; 59; 10; 32; 32; 32; 32; 112; 117; 116; 95; 105; 110; 116; 40; 53; 32; 62; 32; 53; 41; 59; 10; 32; 32; 32; 32; 112; 117; 116; 95; 105; 110; 116; 40; 53; 32; 62; 32; 52; 41; 59; 10; 32; 32; 32; 32; 112; 117; 116; 95; 98; 108; 97; 110; 107; 95; 108; 105; 110; 101; 40; 41; 59; 10; 10; 32; 32; 32; 32; 112; 117; 116; 95; 105; 110; 116; 40; 53; 32; 60; 61; 32; 54; 41; 59; 10; 32; 32; 32; 32; 112; 117; 116; 95; 105; 110; 116; 40; 53; 32; 60; 61; 32; 53; 41; 59; 10; 32; 32; 32; 32; 112; 117; 116; 95; 105; 110; 116; 40; 53; 32; 60; 61; 32; 52; 41; 59; 10; 32; 32; 32; 32; 112; 117; 116; 95; 98; 108; 97; 110; 107; 95; 108; 105; 110; 101; 40; 41; 59; 10; 10; 32; 32; 32; 32; 112; 117; 116; 95; 105; 110; 116; 40; 53; 32; 62; 61; 32; 54; 41; 59; 10; 32; 32; 32; 32; 112; 117; 116; 95; 105; 110; 116; 40; 53; 32; 62; 61; 32; 53; 41; 59; 10; 32; 32; 32; 32; 112; 117; 116; 95; 105; 110; 116; 40; 53; 32; 62; 61; 32; 52; 41; 59; 10; 32; 32; 32; 32; 112; 117; 116; 95; 98; 108; 97; 110; 107; 95; 108; 105; 110; 101; 40; 41; 59; 10; 125; 10; 10; 105; 110; 116; 32; 109; 97; 105; 110; 40; 118; 111; 105; 100; 41; 32; 123; 10; 32; 32; 32; 32; 101; 113; 117; 97; 108; 105; 116; 121; 40; 41; 59; 10; 32; 32; 32; 32; 114; 101; 108; 97; 116; 105; 111; 110; 97; 108; 40; 41; 59; 10; 32; 32; 32; 32; 114; 101; 116; 117; 114; 110; 32; 48; 59; 10; 125; 10].
Example fixture_comparison_ok : output_of (run_source 100000 src_comparison) = Some
  [49; 10; 48; 10; 10; 48; 10; 49; 10; 10; 49; 10; 48; 10; 48; 10; 10; 48; 10; 48; 10; 49; 10; 10; 49; 10; 49; 10; 48; 10; 10; 48; 10; 49; 10; 49; 10; 10].
Proof. vm_compute. reflexivity. Qed.
(** test-fixtures/compstmt *)
Definition src_compstmt : list Z :=
  [118; 111; 105; 100; 32; 112; 117; 116; 95; 105; 110; 116; 40; 105; 110; 116; 32; 120; 41; 59; 10; 10; 105; 110; 116; 32; 109; 97; 105; 110; 40; 118; 111; 105; 100; 41; 32; 123; 10; 32; 32; 32; 32; 105; 110; 116; 32; 120; 44; 32; 121; 59; 10; 32; 32; 32; 32; 120; 32; 61; 32; 50; 59; 10; 32; 32; 32; 32; 121; 32; 61; 32; 52; 59; 10; 32; 32; 32; 32; 112; 117; 116; 95; 105; 110; 116; 40; 120; 41; 59; 10; 32; 32; 32; 32; 112; 117; 116; 95; 105; 110; 116; 40; 121; 41; 59; 10; 32; 32; 32; 32; 123; 10; 32; 32; 32; 32; 32; 32; 32; 32; 105; 110; 116; 32; 121; 59; 10; 32; 32; 32; 32; 32; 32; 32; 32; 121; 32; 61; 32; 120; 32; 45; 32; 49; 59; 10; 32; 32; 32; 32; 32; 32; 32; 32; 112; 117; 116; 95; 105; 110; 116; 40; 120; 41; 59; 10; 32; 32; 32; 32; 32; 32; 32; 32; 112; 117; 116; 95; 105; 110; 116; 40; 121; 41; 59; 10; 32; 32; 32; 32; 32; 32; 32; 32; 120; 32; 61; 32; 120; 32; 43; 32; 121; 59; 10; 32; 32; 32; 32; 32; 32; 32; 32; 112; 117; 116; 95; 105; 110; 116; 40; 120; 41; 59; 10; 32; 32; 32; 32; 32; 32; 32; 32; 112; 117; 116; 95; 105; 110; 116; 40; 121; 41; 59; 10; 32; 32; 32; 32; 125; 10; 32; 32; 32; 32; 112; 117; 116; 95; 105; 110; 116; 40; 120; 41; 59; 10; 32; 32; 32; 32; 112; 117; 116; 95; 105; 110; 116; 40; 121; 41; 59; 10; 32; 32; 32; 32; 114; 101; 116; 117; 114; 110; 32; 48; 59; 10; 125; 10].
Example fixture_compstmt_ok : output_of (run_source 100000 src_compstmt) = Some
  [50; 10; 52; 10; 50; 10; 49; 10; 51; 10; 49; 10; 51; 10; 52; 10].
Proof. vm_compute. reflexivity. Qed.
(** test-fixtures/condition *)
Definition src_condition : list Z :=
  [105; 110; 116; 32; 115; 116; 114; 99; 109; 112; 40; 99; 104; 97; 114; 42; 32; 115; 49; 44; 32; 99; 104; 97; 114; 42; 32; 115; 50; 41; 59; 10; 10; 118; 111; 105; 100; 32; 112; 117; 116; 95; 105; 110; 116; 40; 105; 110; 116; 32; 120; 41; 59; 10; 118; 111; 105; 100; 32; 112; 117; 116; 95; 115; 116; 114; 40; 99; 104; 97; 114; 42; 32; 115; 41; 59; 10; 118; 111; 105; 100; 32; 112; 117; 116; 95; 98; 108; 97; 110; 107; 95; 108; 105; 110; 101; 40; 118; 111; 105; 100; 41; 59; 10; 10; 105; 110; 116; 32; 109; 97; 120; 95; 105; 110; 116; 40; 105; 110; 116; 32; 97; 44; 32; 105; 110; 116; 32; 98; 41; 32; 123; 10; 32; 32; 32; 32; 114; 101; 116; 117; 114; 110; 32; 97; 32; 62; 61; 32; 98; 32; 63; 32; 97; 32; 58; 32; 98; 59; 10; 125; 10; 10; 105; 110; 116; 32; 109; 105; 110; 95; 105; 110; 116; 40; 105; 110; 116; 32; 97; 44; 32; 105; 110; 116; 32; 98; 41; 32; 123; 10; 32; 32; 32; 32; 114; 101; 116; 117; 114; 110; 32; 97; 32; 60; 61; 32; 98; 32; 63; 32; 97; 32; 58; 32; 98; 59; 10; 125; 10; 10; 116; 121; 112; 101; 100; 101; 102; 32; 101; 110; 117; 109; 32; 73; 110; 116; 101; 103; 101; 114; 76; 105; 116; 101; 114; 97; 108; 84; 121; 112; 101; 32; 123; 10; 32; 32; 32; 32; 73; 78; 84; 69; 71; 69; 82; 95; 73; 78; 84; 44; 10; 32; 32; 32; 32; 73; 78; 84; 69; 71; 69; 82; 95; 85; 78; 83; 73; 71; 78; 69; 68; 95; 73; 78; 84; 44; 10; 32; 32; 32; 32; 73; 78; 84; 69; 71; 69; 82; 95; 76; 79; 78; 71; 44; 10; 32; 32; 32; 32; 73; 78; 84; 69; 71; 69; 82; 95; 85; 78; 83; 73; 71; 78; 69; 68; 95; 76; 79; 78; 71; 44; 10; 32; 32; 32; 32; 73; 78; 84; 69; 71; 69; 82; 95; 76; 79; 78; 71; 76; 79; 78; 71; 44; 10; 32; 32; 32; 32; 73; 78; 84; 69; 71; 69; 82; 95; 85; 78; 83; 73; 71; 78; 69; 68; 95; 76; 79; 78; 71; 76; 79; 78; 71; 44; 10; 32; 32; 32; 32; 73; 78; 84; 69; 71; 69; 82; 95; 85; 78; 75; 78; 79; 87; 78; 10; 125; 32; 73; 110; 116; 101; 103; 101; 114; 76; 105; 116; 101; 114; 97; 108; 84; 121; 112; 101; 59; 10; 10; 73; 110; 116; 101; 103; 101; 114; 76; 105; 116; 101; 114; 97; 108; 84; 121; 112; 101; 32; 103; 101; 116; 95; 105; 108; 105; 116; 101; 114; 97; 108; 95; 116; 121; 112; 101; 40; 99; 104; 97; 114; 32; 114; 97; 110; 107; 91; 49; 48; 93; 44; 32; 105; 110; 116; 32; 105; 115; 95; 117; 110; 115; 105; 103; 110; 101; 100; 41; 32; 123; 10; 32; 32; 32; 32; 105; 102; 32; 40; 115; 116; 114; 99; 109; 112; 40; 114; 97; 110; 107; 44; 32; 34; 105; 110; 116; 34; 41; 32; 61; 61; 32; 48; 41; 32; 123; 10; 32; 32; 32; 32; 32; 32; 32; 32; 114; 101; 116; 117; 114; 110; 32; 105; 115; 95; 117; 110; 115; 105; 103; 110; 101; 100; 32; 63; 32; 73; 78; 84; 69; 71; 69; 82; 95; 85; 78; 83; 73; 71; 78; 69; 68; 95; 73; 78; 84; 32; 58; 32; 73; 78; 84; 69; 71; 69; 82; 95; 73; 78; 84; 59; 10; 32; 32; 32; 32; 125; 32; 101; 108; 115; 101; 32; 105; 102; 32; 40; 115; 116; 114; 99; 109; 112; 40; 114; 97; 110; 107; 44; 32; 34; 108; 111; 110; 103; 34; 41; 32; 61; 61; 32; 48; 41; 32; 123; 10; 32; 32; 32; 32; 32; 32; 32; 32; 114; 101; 116; 117; 114; 110; 32; 105; 115; 95; 117; 110; 115; 105; 103; 110; 101; 100; 32; 63; 32; 73; 78; 84; 69; 71; 69; 82; 95; 85; 78; 83; 73; 71; 78; 69; 68; 95; 76; 79; 78; 71; 32; 58; 32; 73; 78; 84; 69; 71; 69; 82; 95; 76; 79; 78; 71; 59; 10; 32; 32; 32; 32; 125; 32; 101; 108; 115; 101; 32; 105; 102; 32; 40; 115; 116; 114; 99; 109; 112; 40; 114; 97; 110; 107; 44; 32; 34; 108; 111; 110; 103; 32; 108; 111; 110; 103; 34; 41; 32; 61; 61; 32; 48; 41; 32; 123; 10; 32; 32; 32; 32; 32; 32; 32; 32; 114; 101; 116; 117; 114; 110; 32; 105; 115; 95; 117; 110; 115; 105; 103; 110; 101; 100; 32; 63; 32; 73; 78; 84; 69; 71; 69; 82; 95; 85; 78; 83; 73; 71; 78; 69; 68; 95; 76; 79; 78; 71; 76; 79; 78; 71; 32; 58; 32; 73; 78; 84; 69; 71; 69; 82; 95; 76; 79; 78; 71; 76; 79; 78; 71; 59; 10; 32; 32; 32; 32; 125; 10; 32; 32; 32; 32; 114; 101; 116; 117; 114; 110; 32; 73; 78; 84; 69; 71; 69; 82; 95; 85; 78; 75; 78; 79; 87; 78; 59; 10; 125; 10; 10; 105; 110; 116; 32; 109; 97; 105; 110; 40; 118; 111; 105; 100; 41; 32; 123; 10; 32; 32; 32; 32; 112; 117; 116; 95; 105; 110; 116; 40; 109; 97; 120; 95; 105; 110; 116; 40; 49; 44; 32; 50; 41; 41; 59; 10; 32; 32; 32; 32; 112; 117; 116; 95; 105; 110; 116; 40; 109; 97; 120; 95; 105; 110; 116; 40; 53; 44; 32; 50; 41; 41; 59; 10; 32; 32; 32; 32; 112; 117; 116; 95; 105; 110; 116; 40; 109; 105; 110; 95; 105; 110; 116; 40; 49; 44; 32; 50; 41; 41; 59; 10; 32; 32; 32; 32; 112; 117; 116; 95; 105; 110; 116; 40; 109; 105; 110; 95; 105; 110; 116; 40; 53; 44; 32; 50; 41; 41; 59; 10; 32; 32; 32; 32; 112; 117; 116; 95; 98; 108; 97; 110; 107; 95; 108; 105; 110; 101; 40; 41; 59; 10; 10; 32; 32; 32; 32; 112; 117; 116; 95; 105; 110; 116; 40; 103; 101; 116; 95; 105; 108; 105; 116; 101; 114; 97; 108; 95; 116; 121; 112; 101; 40; 34; 108; 111; 110; 103; 34; 44; 32; 48; 41; 41; 59; 10; 32; 32; 32; 32; 112; 117; 116; 95; 105; 110; 116; 40; 103; 101; 116; 95; 105; 108; 105; 116; 101; 114; 97; 108; 95; 116; 121; 112; 101; 40; 34; 108; 111; 110; 103; 34; 44; 32; 49; 41; 41; 59; 10; 32; 32; 32; 32; 112; 117; 116; 95; 105; 110; 116; 40; 103; 101; 116; 95; 105; 108; 105; 116; 101; 114; 97; 108; 95; 116; 121; 112; 101; 40; 34; 105; 110; 116; 34; 44; 32; 48; 41; 41; 59; 10; 32; 32; 32; 32; 112; 117; 116; 95; 105; 110; 116; 40; 103; 101; 116; 95; 105; 108; 105; 116; 101; 114; 97; 108; 95; 116; 121; 112; 101; 40; 34; 105; 110; 116; 34; 44; 32; 49; 41; 41; 59; 10; 32; 32; 32; 32; 112; 117; 116; 95; 105; 110; 116; 40; 103; 101; 116; 95; 105; 108; 105; 116; 101; 114; 97; 108; 95; 116; 121; 112; 101; 40; 34; 108; 111; 110; 103; 32; 108; 111; 110; 103; 34; 44; 32; 48; 41; 41; 59; 10; 32; 32; 32; 32; 112; 117; 116; 95; 105; 110; 116; 40; 103; 101; 116; 95; 105; 108; 105; 116; 101; 114; 97; 108; 95; 116; 121; 112; 101; 40; 34; 108; 111; 110; 103; 32; 108; 111; 110; 103; 34; 44; 32; 49; 41; 41; 59; 10; 32; 32; 32; 32; 112; 117; 116; 95; 105; 110; 116; 40; 103; 101; 116; 95; 105; 108; 105; 116; 101; 114; 97; 108; 95; 116; 121; 112; 101; 40; 34; 117; 110; 107; 110; 111; 119; 110; 34; 44; 32; 48; 41; 41; 59; 10; 32; 32; 32; 32; 112; 117; 116; 95; 105; 110; 116; 40; 103; 101; 116; 95; 105; 108; 105; 116; 101; 114; 97; 108; 95; 116; 121; 112; 101; 40; 34; 117; 110; 107; 110; 111; 119; 110; 34; 44; 32; 49; 41; 41; 59; 10; 32; 32; 32; 32; 112; 117; 116; 95; 98; 108; 97; 110; 107; 95; 108; 105; 110; 101; 40; 41; 59; 10; 10; 32; 32; 32; 32; 114; 101; 116; 117; 114; 110; 32; 48; 59; 10; 125].
Example fixture_condition_ok : output_of (run_source 100000 src_condition) = Some
  [50; 10; 53; 10; 49; 10; 50; 10; 10; 50; 10; 51; 10; 48; 10; 49; 10; 52; 10; 53; 10; 54; 10; 54; 10; 10].
Proof. vm_compute. reflexivity. Qed.
(** test-fixtures/enum *)
Definition src_enum : list Z :=
  [101; 110; 117; 109; 32; 83; 105; 122; 101; 32; 123; 10; 32; 32; 32; 32; 83; 77; 65; 76; 76; 32; 61; 32; 49; 48; 44; 10; 32; 32; 32; 32; 77; 69; 68; 73; 85; 77; 32; 61; 32; 50; 48; 44; 10; 32; 32; 32; 32; 76; 65; 82; 71; 69; 32; 61; 32; 51; 48; 44; 10; 32; 32; 32; 32; 69; 88; 84; 82; 65; 95; 76; 65; 82; 71; 69; 44; 10; 125; 59; 10; 10; 118; 111; 105; 100; 32; 112; 117; 116; 95; 105; 110; 116; 40; 105; 110; 116; 32; 120; 41; 59; 10; 118; 111; 105; 100; 32; 112; 117; 116; 95; 98; 108; 97; 110; 107; 95; 108; 105; 110; 101; 40; 118; 111; 105; 100; 41; 59; 10; 10; 105; 110; 116; 32; 109; 97; 105; 110; 40; 118; 111; 105; 100; 41; 32; 123; 10; 32; 32; 32; 32; 116; 121; 112; 101; 100; 101; 102; 32; 101; 110; 117; 109; 32; 78; 117; 109; 98; 101; 114; 32; 123; 32; 90; 69; 82; 79; 44; 32; 79; 78; 69; 32; 125; 32; 78; 117; 109; 98; 101; 114; 59; 10; 10; 32; 32; 32; 32; 112; 117; 116; 95; 105; 110; 116; 40; 90; 69; 82; 79; 41; 59; 10; 32; 32; 32; 32; 112; 117; 116; 95; 105; 110; 116; 40; 79; 78; 69; 41; 59; 10; 32; 32; 32; 32; 112; 117; 116; 95; 105; 110; 116; 40; 83; 77; 65; 76; 76; 41; 59; 10; 32; 32; 32; 32; 112; 117; 116; 95; 105; 110; 116; 40; 77; 69; 68; 73; 85; 77; 41; 59; 10; 32; 32; 32; 32; 112; 117; 116; 95; 105; 110; 116; 40; 76; 65; 82; 71; 69; 41; 59; 10; 32; 32; 32; 32; 112; 117; 116; 95; 105; 110; 116; 40; 69; 88; 84; 82; 65; 95; 76; 65; 82; 71; 69; 41; 59; 10; 32; 32; 32; 32; 112; 117; 116; 95; 98; 108; 97; 110; 107; 95; 108; 105; 110; 101; 40; 41; 59; 10; 10; 32; 32; 32; 32; 78; 117; 109; 98; 101; 114; 32; 112; 32; 61; 32; 50; 44; 32; 113; 32; 61; 32; 90; 69; 82; 79; 59; 10; 32; 32; 32; 32; 112; 117; 116; 95; 105; 110; 116; 40; 112; 41; 59; 10; 32; 32; 32; 32; 112; 117; 116; 95; 105; 110; 116; 40; 113; 41; 59; 10; 32; 32; 32; 32; 112; 117; 116; 95; 98; 108; 97; 110; 107; 95; 108; 105; 110; 101; 40; 41; 59; 10; 10; 32; 32; 32; 32; 101; 110; 117; 109; 32; 83; 105; 122; 101; 32; 120; 115; 32; 61; 32; 53; 44; 32; 115; 32; 61; 32; 83; 77; 65; 76; 76; 44; 32; 109; 32; 61; 32; 77; 69; 68; 73; 85; 77; 44; 32; 108; 32; 61; 32; 76; 65; 82; 71; 69; 44; 32; 120; 108; 32; 61; 32; 69; 88; 84; 82; 65; 95; 76; 65; 82; 71; 69; 59; 10; 32; 32; 32; 32; 112; 117; 116; 95; 105; 110; 116; 40; 120; 115; 41; 59; 10; 32; 32; 32; 32; 112; 117; 116; 95; 105; 110; 116; 40; 115; 41; 59; 10; 32; 32; 32; 32; 112; 117; 116; 95; 105; 110; 116; 40; 109; 41; 59; 10; 32; 32; 32; 32; 112; 117; 116; 95; 105; 110; 116; 40; 108; 41; 59; 10; 32; 32; 32; 32; 112; 117; 116; 95; 105; 110; 116; 40; 120; 108; 41; 59; 10; 125; 10].
Example fixture_enum_ok : output_of (run_source 100000 src_enum) = Some
  [48; 10; 49; 10; 49; 48; 10; 50; 48; 10; 51; 48; 10; 51; 49; 10; 10; 50; 10; 48; 10; 10; 53; 10; 49; 48; 10; 50; 48; 10; 51; 48; 10; 51; 49; 10].
Proof. vm_compute. reflexivity. Qed.
(** test-fixtures/exprstmt *)
Definition src_exprstmt : list Z :=
  [118; 111; 105; 100; 32; 112; 117; 116; 95; 105; 110; 116; 40; 105; 110; 116; 32; 120; 41; 59; 10; 10; 105; 110; 116; 32; 109; 97; 105; 110; 40; 118; 111; 105; 100; 41; 32; 123; 10; 32; 32; 32; 32; 105; 110; 116; 32; 120; 44; 32; 121; 59; 10; 32; 32; 32; 32; 59; 10; 32; 32; 32; 32; 120; 32; 61; 32; 49; 32; 43; 32; 51; 59; 10; 32; 32; 32; 32; 121; 32; 61; 32; 120; 32; 45; 32; 50; 59; 10; 32; 32; 32; 32; 112; 117; 116; 95; 105; 110; 116; 40; 120; 41; 59; 10; 32; 32; 32; 32; 112; 117; 116; 95; 105; 110; 116; 40; 121; 41; 59; 10; 32; 32; 32; 32; 59; 10; 32; 32; 32; 32; 114; 101; 116; 117; 114; 110; 32; 48; 59; 10; 125; 10].
Example fixture_exprstmt_ok : output_of (run_source 100000 src_exprstmt) = Some
  [52; 10; 50; 10].
Proof. vm_compute. reflexivity. Qed.
(** test-fixtures/for *)
Definition src_for : list Z :=
  [118; 111; 105; 100; 32; 112; 117; 116; 95; 105; 110; 116; 40; 105; 110; 116; 32; 120; 41; 59; 10; 118; 111; 105; 100; 32; 112; 117; 116; 95; 115; 116; 114; 40; 99; 104; 97; 114; 42; 32; 115; 116; 114; 41; 59; 10; 118; 111; 105; 100; 32; 112; 117; 116; 95; 98; 108; 97; 110; 107; 95; 108; 105; 110; 101; 40; 118; 111; 105; 100; 41; 59; 10; 10; 105; 110; 116; 32; 109; 97; 105; 110; 40; 118; 111; 105; 100; 41; 32; 123; 10; 32; 32; 32; 32; 102; 111; 114; 32; 40; 59; 32; 48; 59; 41; 32; 123; 10; 32; 32; 32; 32; 32; 32; 32; 32; 112; 117; 116; 95; 115; 116; 114; 40; 34; 69; 82; 82; 79; 82; 58; 32; 102; 111; 114; 32; 108; 111; 111; 112; 32; 115; 104; 111; 117; 108; 100; 32; 110; 111; 116; 32; 98; 101; 32; 101; 120; 101; 99; 117; 116; 101; 100; 34; 41; 59; 10; 32; 32; 32; 32; 125; 10; 10; 32; 32; 32; 32; 102; 111; 114; 32; 40; 105; 110; 116; 32; 105; 32; 61; 32; 48; 59; 32; 105; 32; 60; 32; 53; 59; 32; 105; 43; 43; 41; 32; 123; 10; 32; 32; 32; 32; 32; 32; 32; 32; 112; 117; 116; 95; 105; 110; 116; 40; 105; 41; 59; 10; 32; 32; 32; 32; 125; 10; 32; 32; 32; 32; 112; 117; 116; 95; 98; 108; 97; 110; 107; 95; 108; 105; 110; 101; 40; 41; 59; 10; 10; 32; 32; 32; 32; 105; 110; 116; 32; 105; 32; 61; 32; 48; 44; 32; 121; 32; 61; 32; 48; 44; 32; 122; 32; 61; 32; 49; 59; 10; 32; 32; 32; 32; 102; 111; 114; 32; 40; 105; 32; 61; 32; 48; 59; 32; 105; 32; 60; 32; 49; 49; 59; 32; 105; 43; 43; 41; 32; 123; 10; 32; 32; 32; 32; 32; 32; 32; 32; 122; 32; 61; 32; 50; 32; 42; 32; 122; 59; 10; 32; 32; 32; 32; 32; 32; 32; 32; 112; 117; 116; 95; 105; 110; 116; 40; 122; 41; 59; 10; 32; 32; 32; 32; 125; 10; 32; 32; 32; 32; 112; 117; 116; 95; 98; 108; 97; 110; 107; 95; 108; 105; 110; 101; 40; 41; 59; 10; 10; 32; 32; 32; 32; 102; 111; 114; 32; 40; 105; 110; 116; 32; 105; 32; 61; 32; 48; 59; 59; 32; 105; 32; 43; 61; 32; 50; 41; 32; 123; 10; 32; 32; 32; 32; 32; 32; 32; 32; 105; 102; 32; 40; 105; 32; 62; 32; 49; 48; 41; 32; 123; 10; 32; 32; 32; 32; 32; 32; 32; 32; 32; 32; 32; 32; 98; 114; 101; 97; 107; 59; 10; 32; 32; 32; 32; 32; 32; 32; 32; 125; 10; 32; 32; 32; 32; 32; 32; 32; 32; 112; 117; 116; 95; 105; 110; 116; 40; 105; 41; 59; 10; 32; 32; 32; 32; 125; 10; 32; 32; 32; 32; 112; 117; 116; 95; 98; 108; 97; 110; 107; 95; 108; 105; 110; 101; 40; 41; 59; 10; 10; 32; 32; 32; 32; 102; 111; 114; 32; 40; 105; 110; 116; 32; 105; 32; 61; 32; 48; 59; 32; 105; 32; 60; 32; 53; 59; 32; 105; 43; 43; 41; 32; 123; 10; 32; 32; 32; 32; 32; 32; 32; 32; 105; 102; 32; 40; 105; 32; 61; 61; 32; 51; 41; 32; 123; 10; 32; 32; 32; 32; 32; 32; 32; 32; 32; 32; 32; 32; 99; 111; 110; 116; 105; 110; 117; 101; 59; 10; 32; 32; 32; 32; 32; 32; 32; 32; 125; 10; 32; 32; 32; 32; 32; 32; 32; 32; 112; 117; 116; 95; 105; 110; 116; 40; 105; 41; 59; 10; 32; 32; 32; 32; 125; 10; 32; 32; 32; 32; 112; 117; 116; 95; 98; 108; 97; 110; 107; 95; 108; 105; 110; 101; 40; 41; 59; 10; 10; 32; 32; 32; 32; 114; 101; 116; 117; 114; 110; 32; 48; 59; 10; 125; 10].
Example fixture_for_ok : output_of (run_source 100000 src_for) = Some
  [48; 10; 49; 10; 50; 10; 51; 10; 52; 10; 10; 50; 10; 52; 10; 56; 10; 49; 54; 10; 51; 50; 10; 54; 52; 10; 49; 50; 56; 10; 50; 53; 54; 10; 53; 49; 50; 10; 49; 48; 50; 52; 10; 50; 48; 52; 56; 10; 10; 48; 10; 50; 10; 52; 10; 54; 10; 56; 10; 49; 48; 10; 10; 48; 10; 49; 10; 50; 10; 52; 10; 10].
Proof. vm_compute. reflexivity. Qed.
(** test-fixtures/functioncall *)
Definition src_functioncall : list Z :=
  [118; 111; 105; 100; 32; 112; 117; 116; 95; 105; 110; 116; 40; 105; 110; 116; 32; 120; 41; 59; 10; 118; 111; 105; 100; 32; 112; 117; 116; 95; 55; 105; 110; 116; 115; 40; 105; 110; 116; 32; 120; 49; 44; 32; 105; 110; 116; 32; 120; 50; 44; 32; 105; 110; 116; 32; 120; 51; 44; 32; 105; 110; 116; 32; 120; 52; 44; 32; 105; 110; 116; 32; 120; 53; 44; 32; 105; 110; 116; 32; 120; 54; 44; 32; 105; 110; 116; 32; 120; 55; 41; 59; 10; 118; 111; 105; 100; 32; 112; 117; 116; 95; 56; 105; 110; 116; 115; 40; 105; 110; 116; 32; 120; 49; 44; 32; 105; 110; 116; 32; 120; 50; 44; 32; 105; 110; 116; 32; 120; 51; 44; 32; 105; 110; 116; 32; 120; 52; 44; 32; 105; 110; 116; 32; 120; 53; 44; 32; 105; 110; 116; 32; 120; 54; 44; 32; 105; 110; 116; 32; 120; 55; 44; 32; 105; 110; 116; 32; 120; 56; 41; 59; 10; 10; 105; 110; 116; 32; 97; 100; 100; 95; 50; 105; 110; 116; 115; 40; 105; 110; 116; 32; 120; 49; 44; 32; 105; 110; 116; 32; 120; 50; 41; 32; 123; 10; 32; 32; 32; 32; 114; 101; 116; 117; 114; 110; 32; 120; 49; 32; 43; 32; 120; 50; 59; 10; 125; 10; 10; 105; 110; 116; 32; 97; 100; 100; 115; 117; 98; 95; 56; 105; 110; 116; 115; 40; 105; 110; 116; 32; 120; 49; 44; 32; 105; 110; 116; 32; 120; 50; 44; 32; 105; 110; 116; 32; 120; 51; 44; 32; 105; 110; 116; 32; 120; 52; 44; 32; 105; 110; 116; 32; 120; 53; 44; 32; 105; 110; 116; 32; 120; 54; 44; 32; 105; 110; 116; 32; 120; 55; 44; 32; 105; 110; 116; 32; 120; 56; 41; 32; 123; 10; 32; 32; 32; 32; 114; 101; 116; 117; 114; 110; 32; 120; 49; 32; 45; 32; 120; 50; 32; 43; 32; 120; 51; 32; 45; 32; 120; 52; 32; 43; 32; 120; 53; 32; 45; 32; 120; 54; 32; 43; 32; 120; 55; 32; 45; 32; 120; 56; 59; 10; 125; 10; 10; 105; 110; 116; 32; 109; 97; 105; 110; 40; 118; 111; 105; 100; 41; 32; 123; 10; 32; 32; 32; 32; 118; 111; 105; 100; 32; 112; 117; 116; 95; 98; 108; 97; 110; 107; 95; 108; 105; 110; 101; 40; 118; 111; 105; 100; 41; 59; 10; 10; 32; 32; 32; 32; 112; 117; 116; 95; 55; 105; 110; 116; 115; 40; 49; 44; 32; 51; 44; 32; 53; 44; 32; 55; 44; 32; 57; 44; 32; 49; 49; 44; 32; 49; 51; 41; 59; 10; 32; 32; 32; 32; 112; 117; 116; 95; 98; 108; 97; 110; 107; 95; 108; 105; 110; 101; 40; 41; 59; 10; 10; 32; 32; 32; 32; 112; 117; 116; 95; 56; 105; 110; 116; 115; 40; 50; 44; 32; 52; 44; 32; 56; 44; 32; 49; 54; 44; 32; 51; 50; 44; 32; 54; 52; 44; 32; 49; 50; 56; 44; 32; 50; 53; 54; 41; 59; 10; 32; 32; 32; 32; 112; 117; 116; 95; 98; 108; 97; 110; 107; 95; 108; 105; 110; 101; 40; 41; 59; 10; 10; 32; 32; 32; 32; 112; 117; 116; 95; 105; 110; 116; 40; 97; 100; 100; 95; 50; 105; 110; 116; 115; 40; 54; 44; 32; 55; 41; 41; 59; 10; 32; 32; 32; 32; 112; 117; 116; 95; 105; 110; 116; 40; 97; 100; 100; 95; 50; 105; 110; 116; 115; 40; 97; 100; 100; 95; 50; 105; 110; 116; 115; 40; 49; 44; 32; 50; 41; 44; 32; 97; 100; 100; 95; 50; 105; 110; 116; 115; 40; 51; 44; 32; 52; 41; 41; 41; 59; 10; 32; 32; 32; 32; 112; 117; 116; 95; 105; 110; 116; 40; 97; 100; 100; 115; 117; 98; 95; 56; 105; 110; 116; 115; 40; 49; 44; 32; 50; 44; 32; 51; 44; 32; 52; 44; 32; 53; 44; 32; 54; 44; 32; 55; 44; 32; 56; 41; 41; 59; 10; 10; 32; 32; 32; 32; 114; 101; 116; 117; 114; 110; 32; 48; 59; 10; 125; 10].
Example fixture_functioncall_ok : output_of (run_source 100000 src_functioncall) = Some
  [49; 10; 51; 10; 53; 10; 55; 10; 57; 10; 49; 49; 10; 49; 51; 10; 10; 50; 10; 52; 10; 56; 10; 49; 54; 10; 51; 50; 10; 54; 52; 10; 49; 50; 56; 10; 50; 53; 54; 10; 10; 49; 51; 10; 49; 48; 10; 45; 52; 10].
Proof. vm_compute. reflexivity. Qed.
(** test-fixtures/functiondef *)
Definition src_functiondef : list Z :=
  [118; 111; 105; 100; 32; 112; 117; 116; 95; 105; 110; 116; 40; 105; 110; 116; 32; 120; 41; 59; 10; 10; 105; 110; 116; 32; 103; 114; 97; 110; 100; 99; 104; 105; 108; 100; 40; 105; 110; 116; 32; 120; 44; 32; 105; 110; 116; 32; 121; 41; 32; 123; 10; 32; 32; 32; 32; 114; 101; 116; 117; 114; 110; 32; 120; 32; 42; 32; 120; 32; 43; 32; 121; 32; 42; 32; 121; 59; 10; 125; 10; 10; 105; 110; 116; 32; 99; 104; 105; 108; 100; 40; 105; 110; 116; 32; 97; 44; 32; 105; 110; 116; 32; 98; 41; 32; 123; 10; 32; 32; 32; 32; 105; 110; 116; 32; 99; 44; 32; 100; 59; 10; 32; 32; 32; 32; 99; 32; 61; 32; 97; 32; 43; 32; 98; 59; 10; 32; 32; 32; 32; 100; 32; 61; 32; 97; 32; 45; 32; 98; 59; 10; 32; 32; 32; 32; 114; 101; 116; 117; 114; 110; 32; 103; 114; 97; 110; 100; 99; 104; 105; 108; 100; 40; 99; 44; 32; 100; 41; 32; 45; 32; 103; 114; 97; 110; 100; 99; 104; 105; 108; 100; 40; 97; 44; 32; 98; 41; 59; 10; 125; 10; 10; 105; 110; 116; 32; 109; 97; 105; 110; 40; 118; 111; 105; 100; 41; 32; 123; 10; 32; 32; 32; 32; 112; 117; 116; 95; 105; 110; 116; 40; 99; 104; 105; 108; 100; 40; 49; 44; 32; 51; 41; 41; 59; 10; 32; 32; 32; 32; 112; 117; 116; 95; 105; 110; 116; 40; 99; 104; 105; 108; 100; 40; 52; 44; 32; 51; 41; 41; 59; 10; 32; 32; 32; 32; 114; 101; 116; 117; 114; 110; 32; 48; 59; 10; 125; 10].
Example fixture_functiondef_ok : output_of (run_source 100000 src_functiondef) = Some
  [49; 48; 10; 50; 53; 10].
Proof. vm_compute. reflexivity. Qed.
(** test-fixtures/functionptr *)
Definition src_functionptr : list Z :=
  [118; 111; 105; 100; 32; 112; 117; 116; 95; 105; 110; 116; 40; 105; 110; 116; 32; 120; 41; 59; 10; 10; 105; 110; 116; 32; 98; 105; 110; 95; 111; 112; 101; 114; 97; 116; 111; 114; 40; 105; 110; 116; 32; 111; 112; 101; 114; 97; 116; 111; 114; 40; 105; 110; 116; 32; 120; 44; 32; 105; 110; 116; 32; 121; 41; 44; 32; 105; 110; 116; 32; 120; 44; 32; 105; 110; 116; 32; 121; 41; 32; 123; 10; 32; 32; 32; 32; 114; 101; 116; 117; 114; 110; 32; 111; 112; 101; 114; 97; 116; 111; 114; 40; 120; 44; 32; 121; 41; 59; 10; 125; 10; 10; 105; 110; 116; 32; 97; 100; 100; 40; 105; 110; 116; 32; 120; 44; 32; 105; 110; 116; 32; 121; 41; 32; 123; 10; 32; 32; 32; 32; 114; 101; 116; 117; 114; 110; 32; 120; 32; 43; 32; 121; 59; 10; 125; 10; 10; 105; 110; 116; 32; 115; 117; 98; 40; 105; 110; 116; 32; 120; 44; 32; 105; 110; 116; 32; 121; 41; 32; 123; 10; 32; 32; 32; 32; 114; 101; 116; 117; 114; 110; 32; 120; 32; 45; 32; 121; 59; 10; 125; 10; 10; 105; 110; 116; 32; 109; 117; 108; 40; 105; 110; 116; 32; 120; 44; 32; 105; 110; 116; 32; 121; 41; 32; 123; 10; 32; 32; 32; 32; 114; 101; 116; 117; 114; 110; 32; 120; 32; 42; 32; 121; 59; 10; 125; 10; 10; 105; 110; 116; 32; 100; 105; 118; 40; 105; 110; 116; 32; 120; 44; 32; 105; 110; 116; 32; 121; 41; 32; 123; 10; 32; 32; 32; 32; 114; 101; 116; 117; 114; 110; 32; 120; 32; 47; 32; 121; 59; 10; 125; 10; 10; 105; 110; 116; 32; 109; 97; 105; 110; 40; 118; 111; 105; 100; 41; 32; 123; 10; 32; 32; 32; 32; 112; 117; 116; 95; 105; 110; 116; 40; 98; 105; 110; 95; 111; 112; 101; 114; 97; 116; 111; 114; 40; 97; 100; 100; 44; 32; 51; 44; 32; 52; 41; 41; 59; 10; 32; 32; 32; 32; 112; 117; 116; 95; 105; 110; 116; 40; 98; 105; 110; 95; 111; 112; 101; 114; 97; 116; 111; 114; 40; 115; 117; 98; 44; 32; 49; 44; 32; 50; 41; 41; 59; 10; 32; 32; 32; 32; 112; 117; 116; 95; 105; 110; 116; 40; 98; 105; 110; 95; 111; 112; 101; 114; 97; 116; 111; 114; 40; 109; 117; 108; 44; 32; 51; 44; 32; 53; 41; 41; 59; 10; 32; 32; 32; 32; 112; 117; 116; 95; 105; 110; 116; 40; 98; 105; 110; 95; 111; 112; 101; 114; 97; 116; 111; 114; 40; 100; 105; 118; 44; 32; 54; 44; 32; 53; 41; 41; 59; 10; 32; 32; 32; 32; 114; 101; 116; 117; 114; 110; 32; 48; 59; 10; 125; 10].
Example fixture_functionptr_ok : output_of (run_source 100000 src_functionptr) = Some
  [55; 10; 45; 49; 10; 49; 53; 10; 49; 10].
Proof. vm_compute. reflexivity. Qed.
(** test-fixtures/globalvar *)
Definition src_globalvar : list Z :=
  [99; 104; 97; 114; 32; 99; 32; 61; 32; 53; 59; 10; 99; 104; 97; 114; 32; 122; 99; 59; 10; 10; 105; 110; 116; 32; 105; 32; 61; 32; 49; 50; 59; 10; 105; 110; 116; 32; 122; 105; 59; 10; 10; 99; 104; 97; 114; 32; 99; 97; 91; 53; 93; 32; 61; 32; 123; 39; 100; 39; 44; 32; 39; 101; 39; 44; 32; 39; 102; 39; 44; 32; 39; 92; 48; 39; 125; 59; 10; 99; 104; 97; 114; 32; 122; 99; 97; 91; 53; 93; 59; 10; 10; 105; 110; 116; 32; 105; 97; 91; 52; 93; 32; 61; 32; 123; 49; 44; 32; 50; 44; 32; 51; 125; 59; 10; 105; 110; 116; 32; 122; 105; 97; 91; 52; 93; 59; 10; 10; 118; 111; 105; 100; 32; 112; 117; 116; 95; 105; 110; 116; 40; 105; 110; 116; 32; 120; 41; 59; 10; 118; 111; 105; 100; 32; 112; 117; 116; 95; 115; 116; 114; 40; 99; 104; 97; 114; 42; 32; 120; 41; 59; 10; 118; 111; 105; 100; 32; 112; 117; 116; 95; 98; 108; 97; 110; 107; 95; 108; 105; 110; 101; 40; 118; 111; 105; 100; 41; 59; 10; 10; 105; 110; 116; 32; 109; 97; 105; 110; 40; 118; 111; 105; 100; 41; 32; 123; 10; 32; 32; 32; 32; 112; 117; 116; 95; 105; 110; 116; 40; 99; 41; 59; 10; 32; 32; 32; 32; 112; 117; 116; 95; 105; 110; 116; 40; 122; 99; 41; 59; 10; 32; 32; 32; 32; 112; 117; 116; 95; 98; 108; 97; 110; 107; 95; 108; 105; 110; 101; 40; 41; 59; 10; 10; 32; 32; 32; 32; 112; 117; 116; 95; 105; 110; 116; 40; 105; 41; 59; 10; 32; 32; 32; 32; 112; 117; 116; 95; 105; 110; 116; 40; 122; 105; 41; 59; 10; 32; 32; 32; 32; 112; 117; 116; 95; 98; 108; 97; 110; 107; 95; 108; 105; 110; 101; 40; 41; 59; 10; 10; 32; 32; 32; 32; 112; 117; 116; 95; 115; 116; 114; 40; 99; 97; 41; 59; 10; 32; 32; 32; 32; 112; 117; 116; 95; 115; 116; 114; 40; 122; 99; 97; 41; 59; 10; 32; 32; 32; 32; 112; 117; 116; 95; 98; 108; 97; 110; 107; 95; 108; 105; 110; 101; 40; 41; 59; 10; 10; 32; 32; 32; 32; 112; 117; 116; 95; 105; 110; 116; 40; 105; 97; 91; 48; 93; 41; 59; 10; 32; 32; 32; 32; 112; 117; 116; 95; 105; 110; 116; 40; 105; 97; 91; 49; 93; 41; 59; 10; 32; 32; 32; 32; 112; 117; 116; 95; 105; 110; 116; 40; 105; 97; 91; 50; 93; 41; 59; 10; 32; 32; 32; 32; 112; 117; 116; 95; 105; 110; 116; 40; 105; 97; 91; 51; 93; 41; 59; 10; 32; 32; 32; 32; 112; 117; 116; 95; 105; 110; 116; 40; 122; 105; 97; 91; 48; 93; 41; 59; 10; 32; 32; 32; 32; 112; 117; 116; 95; 105; 110; 116; 40; 122; 105; 97; 91; 49; 93; 41; 59; 10; 32; 32; 32; 32; 112; 117; 116; 95; 105; 110; 116; 40; 122; 105; 97; 91; 50; 93; 41; 59; 10; 32; 32; 32; 32; 112; 117; 116; 95; 105; 110; 116; 40; 122; 105; 97; 91; 51; 93; 41; 59; 10; 10; 32; 32; 32; 32; 114; 101; 116; 117; 114; 110; 32; 48; 59; 10; 125; 10].
Example fixture_globalvar_ok : output_of (run_source 100000 src_globalvar) = Some
  [53; 10; 48; 10; 10; 49; 50; 10; 48; 10; 10; 100; 101; 102; 10; 10; 10; 49; 10; 50; 10; 51; 10; 48; 10; 48; 10; 48; 10; 48; 10; 48; 10].
Proof. vm_compute. reflexivity. Qed.
(** test-fixtures/ifelse *)
Definition src_ifelse : list Z :=
  [118; 111; 105; 100; 32; 112; 117; 116; 95; 105; 110; 116; 40; 105; 110; 116; 32; 120; 41; 59; 10; 118; 111; 105; 100; 32; 112; 117; 116; 95; 115; 116; 114; 40; 99; 104; 97; 114; 42; 32; 120; 41; 59; 10; 10; 118; 111; 105; 100; 32; 112; 117; 116; 95; 102; 105; 122; 122; 98; 117; 122; 122; 40; 105; 110; 116; 32; 110; 41; 32; 123; 10; 32; 32; 32; 32; 105; 102; 32; 40; 110; 32; 61; 61; 32; 48; 41; 32; 123; 10; 32; 32; 32; 32; 32; 32; 32; 32; 114; 101; 116; 117; 114; 110; 59; 10; 32; 32; 32; 32; 125; 10; 10; 32; 32; 32; 32; 112; 117; 116; 95; 102; 105; 122; 122; 98; 117; 122; 122; 40; 110; 32; 45; 32; 49; 41; 59; 10; 10; 32; 32; 32; 32; 105; 102; 32; 40; 110; 32; 37; 32; 49; 53; 32; 61; 61; 32; 48; 41; 32; 123; 10; 32; 32; 32; 32; 32; 32; 32; 32; 112; 117; 116; 95; 115; 116; 114; 40; 34; 70; 105; 122; 122; 66; 117; 122; 122; 34; 41; 59; 10; 32; 32; 32; 32; 125; 32; 101; 108; 115; 101; 32; 105; 102; 32; 40; 110; 32; 37; 32; 51; 32; 61; 61; 32; 48; 41; 32; 123; 10; 32; 32; 32; 32; 32; 32; 32; 32; 112; 117; 116; 95; 115; 116; 114; 40; 34; 70; 105; 122; 122; 34; 41; 59; 10; 32; 32; 32; 32; 125; 32; 101; 108; 115; 101; 32; 105; 102; 32; 40; 110; 32; 37; 32; 53; 32; 61; 61; 32; 48; 41; 32; 123; 10; 32; 32; 32; 32; 32; 32; 32; 32; 112; 117; 116; 95; 115; 116; 114; 40; 34; 66; 117; 122; 122; 34; 41; 59; 10; 32; 32; 32; 32; 125; 32; 101; 108; 115; 101; 32; 123; 10; 32; 32; 32; 32; 32; 32; 32; 32; 112; 117; 116; 95; 105; 110; 116; 40; 110; 41; 59; 10; 32; 32; 32; 32; 125; 10; 125; 10; 10; 105; 110; 116; 32; 109; 97; 105; 110; 40; 118; 111; 105; 100; 41; 32; 123; 10; 32; 32; 32; 32; 112; 117; 116; 95; 102; 105; 122; 122; 98; 117; 122; 122; 40; 49; 53; 41; 59; 10; 32; 32; 32; 32; 114; 101; 116; 117; 114; 110; 32; 48; 59; 10; 125; 10].
Example fixture_ifelse_ok : output_of (run_source 100000 src_ifelse) = Some
  [49; 10; 50; 10; 70; 105; 122; 122; 10; 52; 10; 66; 117; 122; 122; 10; 70; 105; 122; 122; 10; 55; 10; 56; 10; 70; 105; 122; 122; 10; 66; 117; 122; 122; 10; 49; 49; 10; 70; 105; 122; 122; 10; 49; 51; 10; 49; 52; 10; 70; 105; 122; 122; 66; 117; 122; 122; 10].
Proof. vm_compute. reflexivity. Qed.
(** test-fixtures/incdec *)
Definition src_incdec : list Z :=
  [118; 111; 105; 100; 32; 112; 117; 116; 95; 105; 110; 116; 40; 105; 110; 116; 32; 120; 41; 59; 10; 118; 111; 105; 100; 32; 112; 117; 116; 95; 117; 110; 115; 105; 103; 110; 101; 100; 95; 105; 110; 116; 40; 117; 110; 115; 105; 103; 110; 101; 100; 32; 105; 110; 116; 32; 120; 41; 59; 10; 118; 111; 105; 100; 32; 112; 117; 116; 95; 98; 108; 97; 110; 107; 95; 108; 105; 110; 101; 40; 118; 111; 105; 100; 41; 59; 10; 10; 117; 110; 115; 105; 103; 110; 101; 100; 32; 115; 116; 114; 105; 110; 103; 95; 108; 101; 110; 103; 116; 104; 40; 99; 104; 97; 114; 42; 32; 115; 41; 32; 123; 10; 32; 32; 32; 32; 117; 110; 115; 105; 103; 110; 101; 100; 32; 108; 101; 110; 32; 61; 32; 48; 59; 10; 32; 32; 32; 32; 119; 104; 105; 108; 101; 32; 40; 42; 115; 43; 43; 32; 33; 61; 32; 39; 92; 48; 39; 41; 32; 123; 10; 32; 32; 32; 32; 32; 32; 32; 32; 43; 43; 108; 101; 110; 59; 10; 32; 32; 32; 32; 125; 10; 32; 32; 32; 32; 114; 101; 116; 117; 114; 110; 32; 108; 101; 110; 59; 10; 125; 10; 10; 105; 110; 116; 32; 109; 97; 105; 110; 40; 118; 111; 105; 100; 41; 32; 123; 10; 32; 32; 32; 32; 105; 110; 116; 32; 120; 59; 10; 10; 32; 32; 32; 32; 120; 32; 61; 32; 49; 59; 10; 32; 32; 32; 32; 112; 117; 116; 95; 105; 110; 116; 40; 120; 43; 43; 41; 59; 10; 32; 32; 32; 32; 120; 32; 61; 32; 49; 59; 10; 32; 32; 32; 32; 112; 117; 116; 95; 105; 110; 116; 40; 43; 43; 120; 41; 59; 10; 32; 32; 32; 32; 120; 32; 61; 32; 49; 59; 10; 32; 32; 32; 32; 112; 117; 116; 95; 105; 110; 116; 40; 120; 45; 45; 41; 59; 10; 32; 32; 32; 32; 120; 32; 61; 32; 49; 59; 10; 32; 32; 32; 32; 112; 117; 116; 95; 105; 110; 116; 40; 45; 45; 120; 41; 59; 10; 32; 32; 32; 32; 112; 117; 116; 95; 98; 108; 97; 110; 107; 95; 108; 105; 110; 101; 40; 41; 59; 10; 10; 32; 32; 32; 32; 99; 104; 97; 114; 42; 32; 115; 32; 61; 32; 34; 72; 101; 108; 108; 111; 44; 32; 119; 111; 114; 108; 100; 33; 34; 59; 10; 32; 32; 32; 32; 112; 117; 116; 95; 117; 110; 115; 105; 103; 110; 101; 100; 95; 105; 110; 116; 40; 115; 116; 114; 105; 110; 103; 95; 108; 101; 110; 103; 116; 104; 40; 115; 41; 41; 59; 10; 10; 32; 32; 32; 32; 114; 101; 116; 117; 114; 110; 32; 48; 59; 10; 125; 10].
Example fixture_incdec_ok : output_of (run_source 100000 src_incdec) = Some
  [49; 10; 50; 10; 49; 10; 48; 10; 10; 49; 51; 10].
Proof. vm_compute. reflexivity. Qed.
(** test-fixtures/initializer *)
Definition src_initializer : list Z :=
  [118; 111; 105; 100; 32; 112; 117; 116; 95; 105; 110; 116; 40; 105; 110; 116; 32; 120; 41; 59; 10; 118; 111; 105; 100; 32; 112; 117; 116; 95; 98; 108; 97; 110; 107; 95; 108; 105; 110; 101; 40; 118; 111; 105; 100; 41; 59; 10; 10; 105; 110; 116; 32; 109; 97; 105; 110; 40; 118; 111; 105; 100; 41; 32; 123; 10; 32; 32; 32; 32; 105; 110; 116; 32; 120; 32; 61; 32; 56; 59; 10; 32; 32; 32; 32; 105; 110; 116; 32; 121; 32; 61; 32; 123; 120; 125; 59; 10; 10; 32; 32; 32; 32; 112; 117; 116; 95; 105; 110; 116; 40; 120; 41; 59; 10; 32; 32; 32; 32; 112; 117; 116; 95; 105; 110; 116; 40; 121; 41; 59; 10; 32; 32; 32; 32; 112; 117; 116; 95; 98; 108; 97; 110; 107; 95; 108; 105; 110; 101; 40; 41; 59; 10; 10; 32; 32; 32; 32; 105; 110; 116; 32; 97; 91; 50; 93; 32; 61; 32; 123; 49; 125; 59; 10; 32; 32; 32; 32; 112; 117; 116; 95; 105; 110; 116; 40; 97; 91; 48; 93; 41; 59; 10; 32; 32; 32; 32; 112; 117; 116; 95; 105; 110; 116; 40; 97; 91; 49; 93; 41; 59; 10; 32; 32; 32; 32; 112; 117; 116; 95; 98; 108; 97; 110; 107; 95; 108; 105; 110; 101; 40; 41; 59; 10; 10; 32; 32; 32; 32; 105; 110; 116; 32; 98; 91; 50; 93; 91; 51; 93; 32; 61; 32; 123; 123; 50; 125; 44; 32; 123; 51; 44; 32; 52; 44; 32; 53; 125; 125; 59; 10; 32; 32; 32; 32; 112; 117; 116; 95; 105; 110; 116; 40; 98; 91; 48; 93; 91; 48; 93; 41; 59; 10; 32; 32; 32; 32; 112; 117; 116; 95; 105; 110; 116; 40; 98; 91; 48; 93; 91; 49; 93; 41; 59; 10; 32; 32; 32; 32; 112; 117; 116; 95; 105; 110; 116; 40; 98; 91; 48; 93; 91; 50; 93; 41; 59; 10; 32; 32; 32; 32; 112; 117; 116; 95; 105; 110; 116; 40; 98; 91; 49; 93; 91; 48; 93; 41; 59; 10; 32; 32; 32; 32; 112; 117; 116; 95; 105; 110; 116; 40; 98; 91; 49; 93; 91; 49; 93; 41; 59; 10; 32; 32; 32; 32; 112; 117; 116; 95; 105; 110; 116; 40; 98; 91; 49; 93; 91; 50; 93; 41; 59; 10; 32; 32; 32; 32; 112; 117; 116; 95; 98; 108; 97; 110; 107; 95; 108; 105; 110; 101; 40; 41; 59; 10; 10; 32; 32; 32; 32; 105; 110; 116; 32; 99; 91; 51; 93; 91; 50; 93; 32; 61; 32; 123; 120; 32; 43; 32; 49; 44; 32; 120; 32; 42; 32; 50; 44; 32; 120; 32; 43; 32; 52; 125; 59; 10; 32; 32; 32; 32; 112; 117; 116; 95; 105; 110; 116; 40; 99; 91; 48; 93; 91; 48; 93; 41; 59; 10; 32; 32; 32; 32; 112; 117; 116; 95; 105; 110; 116; 40; 99; 91; 48; 93; 91; 49; 93; 41; 59; 10; 32; 32; 32; 32; 112; 117; 116; 95; 105; 110; 116; 40; 99; 91; 49; 93; 91; 48; 93; 41; 59; 10; 32; 32; 32; 32; 112; 117; 116; 95; 105; 110; 116; 40; 99; 91; 49; 93; 91; 49; 93; 41; 59; 10; 32; 32; 32; 32; 112; 117; 116; 95; 105; 110; 116; 40; 99; 91; 50; 93; 91; 48; 93; 41; 59; 10; 32; 32; 32; 32; 112; 117; 116; 95; 105; 110; 116; 40; 99; 91; 50; 93; 91; 48; 93; 41; 59; 10; 32; 32; 32; 32; 112; 117; 116; 95; 98; 108; 97; 110; 107; 95; 108; 105; 110; 101; 40; 41; 59; 10; 10; 32; 32; 32; 32; 105; 110; 116; 32; 100; 91; 51; 93; 91; 51; 93; 32; 61; 32; 123; 123; 49; 48; 125; 44; 32; 49; 49; 44; 32; 49; 50; 44; 32; 49; 51; 44; 32; 123; 49; 52; 125; 125; 59; 10; 32; 32; 32; 32; 112; 117; 116; 95; 105; 110; 116; 40; 100; 91; 48; 93; 91; 48; 93; 41; 59; 10; 32; 32; 32; 32; 112; 117; 116; 95; 105; 110; 116; 40; 100; 91; 48; 93; 91; 49; 93; 41; 59; 10; 32; 32; 32; 32; 112; 117; 116; 95; 105; 110; 116; 40; 100; 91; 48; 93; 91; 50; 93; 41; 59; 10; 32; 32; 32; 32; 112; 117; 116; 95; 105; 110; 116; 40; 100; 91; 49; 93; 91; 48; 93; 41; 59; 10; 32; 32; 32; 32; 112; 117; 116; 95; 105; 110; 116; 40; 100; 91; 49; 93; 91; 49; 93; 41; 59; 10; 32; 32; 32; 32; 112; 117; 116; 95; 105; 110; 116; 40; 100; 91; 49; 93; 91; 50; 93; 41; 59; 10; 32; 32; 32; 32; 112; 117; 116; 95; 105; 110; 116; 40; 100; 91; 50; 93; 91; 48; 93; 41; 59; 10; 32; 32; 32; 32; 112; 117; 116; 95; 105; 110; 116; 40; 100; 91; 50; 93; 91; 49; 93; 41; 59; 10; 32; 32; 32; 32; 112; 117; 116; 95; 105; 110; 116; 40; 100; 91; 50; 93; 91; 50; 93; 41; 59; 10; 32; 32; 32; 32; 112; 117; 116; 95; 98; 108; 97; 110; 107; 95; 108; 105; 110; 101; 40; 41; 59; 10; 10; 32; 32; 32; 32; 105; 110; 116; 32; 101; 91; 50; 93; 91; 51; 93; 32; 61; 32; 123; 50; 48; 44; 32; 123; 50; 49; 125; 44; 32; 123; 50; 50; 125; 125; 59; 10; 32; 32; 32; 32; 112; 117; 116; 95; 105; 110; 116; 40; 101; 91; 48; 93; 91; 48; 93; 41; 59; 10; 32; 32; 32; 32; 112; 117; 116; 95; 105; 110; 116; 40; 101; 91; 48; 93; 91; 49; 93; 41; 59; 10; 32; 32; 32; 32; 112; 117; 116; 95; 105; 110; 116; 40; 101; 91; 48; 93; 91; 50; 93; 41; 59; 10; 32; 32; 32; 32; 112; 117; 116; 95; 105; 110; 116; 40; 101; 91; 49; 93; 91; 48; 93; 41; 59; 10; 32; 32; 32; 32; 112; 117; 116; 95; 105; 110; 116; 40; 101; 91; 49; 93; 91; 49; 93; 41; 59; 10; 32; 32; 32; 32; 112; 117; 116; 95; 105; 110; 116; 40; 101; 91; 49; 93; 91; 50; 93; 41; 59; 10; 10; 32; 32; 32; 32; 114; 101; 116; 117; 114; 110; 32; 48; 59; 10; 125; 10].
Example fixture_initializer_ok : output_of (run_source 100000 src_initializer) = Some
  [56; 10; 56; 10; 10; 49; 10; 48; 10; 10; 50; 10; 48; 10; 48; 10; 51; 10; 52; 10; 53; 10; 10; 57; 10; 49; 54; 10; 49; 50; 10; 48; 10; 48; 10; 48; 10; 10; 49; 48; 10; 48; 10; 48; 10; 49; 49; 10; 49; 50; 10; 49; 51; 10; 49; 52; 10; 48; 10; 48; 10; 10; 50; 48; 10; 50; 49; 10; 50; 50; 10; 48; 10; 48; 10; 48; 10].
Proof. vm_compute. reflexivity. Qed.
(** test-fixtures/int *)
Definition src_int : list Z :=
  [118; 111; 105; 100; 32; 112; 117; 116; 95; 105; 110; 116; 40; 105; 110; 116; 32; 120; 41; 59; 10; 10; 105; 110; 116; 32; 109; 97; 105; 110; 40; 118; 111; 105; 100; 41; 32; 123; 10; 32; 32; 32; 32; 112; 117; 116; 95; 105; 110; 116; 40; 48; 49; 50; 41; 59; 10; 32; 32; 32; 32; 112; 117; 116; 95; 105; 110; 116; 40; 48; 120; 50; 65; 41; 59; 10; 32; 32; 32; 32; 112; 117; 116; 95; 105; 110; 116; 40; 48; 120; 50; 100; 41; 59; 10; 32; 32; 32; 32; 114; 101; 116; 117; 114; 110; 32; 48; 59; 10; 125; 10].
Example fixture_int_ok : output_of (run_source 100000 src_int) = Some
  [49; 48; 10; 52; 50; 10; 52; 53; 10].
Proof. vm_compute. reflexivity. Qed.
(** test-fixtures/logical *)
Definition src_logical : list Z :=
  [105; 110; 116; 32; 105; 100; 101; 110; 116; 105; 116; 121; 95; 112; 117; 116; 95; 105; 110; 116; 40; 105; 110; 116; 32; 120; 41; 59; 10; 118; 111; 105; 100; 32; 112; 117; 116; 95; 105; 110; 116; 40; 105; 110; 116; 32; 120; 41; 59; 10; 118; 111; 105; 100; 32; 112; 117; 116; 95; 98; 108; 97; 110; 107; 95; 108; 105; 110; 101; 40; 118; 111; 105; 100; 41; 59; 10; 10; 105; 110; 116; 32; 109; 97; 105; 110; 40; 118; 111; 105; 100; 41; 32; 123; 10; 32; 32; 32; 32; 112; 117; 116; 95; 105; 110; 116; 40; 50; 32; 38; 38; 32; 49; 41; 59; 10; 32; 32; 32; 32; 112; 117; 116; 95; 105; 110; 116; 40; 48; 32; 38; 38; 32; 49; 41; 59; 10; 32; 32; 32; 32; 112; 117; 116; 95; 105; 110; 116; 40; 50; 32; 38; 38; 32; 48; 41; 59; 10; 32; 32; 32; 32; 112; 117; 116; 95; 105; 110; 116; 40; 48; 32; 38; 38; 32; 48; 41; 59; 10; 32; 32; 32; 32; 112; 117; 116; 95; 98; 108; 97; 110; 107; 95; 108; 105; 110; 101; 40; 41; 59; 10; 10; 32; 32; 32; 32; 112; 117; 116; 95; 105; 110; 116; 40; 50; 32; 124; 124; 32; 49; 41; 59; 10; 32; 32; 32; 32; 112; 117; 116; 95; 105; 110; 116; 40; 48; 32; 124; 124; 32; 49; 41; 59; 10; 32; 32; 32; 32; 112; 117; 116; 95; 105; 110; 116; 40; 50; 32; 124; 124; 32; 48; 41; 59; 10; 32; 32; 32; 32; 112; 117; 116; 95; 105; 110; 116; 40; 48; 32; 124; 124; 32; 48; 41; 59; 10; 32; 32; 32; 32; 112; 117; 116; 95; 98; 108; 97; 110; 107; 95; 108; 105; 110; 101; 40; 41; 59; 10; 10; 32; 32; 32; 32; 112; 117; 116; 95; 105; 110; 116; 40; 33; 50; 41; 59; 10; 32; 32; 32; 32; 112; 117; 116; 95; 105; 110; 116; 40; 33; 33; 49; 41; 59; 10; 32; 32; 32; 32; 112; 117; 116; 95; 105; 110; 116; 40; 33; 48; 41; 59; 10; 32; 32; 32; 32; 112; 117; 116; 95; 105; 110; 116; 40; 33; 33; 48; 41; 59; 10; 32; 32; 32; 32; 112; 117; 116; 95; 98; 108; 97; 110; 107; 95; 108; 105; 110; 101; 40; 41; 59; 10; 10; 32; 32; 32; 32; 105; 100; 101; 110; 116; 105; 116; 121; 95; 112; 117; 116; 95; 105; 110; 116; 40; 55; 41; 32; 38; 38; 32; 105; 100; 101; 110; 116; 105; 116; 121; 95; 112; 117; 116; 95; 105; 110; 116; 40; 52; 41; 59; 10; 32; 32; 32; 32; 112; 117; 116; 95; 98; 108; 97; 110; 107; 95; 108; 105; 110; 101; 40; 41; 59; 10; 10; 32; 32; 32; 32; 105; 100; 101; 110; 116; 105; 116; 121; 95; 112; 117; 116; 95; 105; 110; 116; 40; 48; 41; 32; 38; 38; 32; 105; 100; 101; 110; 116; 105; 116; 121; 95; 112; 117; 116; 95; 105; 110; 116; 40; 52; 41; 59; 10; 32; 32; 32; 32; 112; 117; 116; 95; 98; 108; 97; 110; 107; 95; 108; 105; 110; 101; 40; 41; 59; 10; 10; 32; 32; 32; 32; 105; 100; 101; 110; 116; 105; 116; 121; 95; 112; 117; 116; 95; 105; 110; 116; 40; 55; 41; 32; 38; 38; 32; 105; 100; 101; 110; 116; 105; 116; 121; 95; 112; 117; 116; 95; 105; 110; 116; 40; 48; 41; 59; 10; 32; 32; 32; 32; 112; 117; 116; 95; 98; 108; 97; 110; 107; 95; 108; 105; 110; 101; 40; 41; 59; 10; 10; 32; 32; 32; 32; 105; 100; 101; 110; 116; 105; 116; 121; 95; 112; 117; 116; 95; 105; 110; 116; 40; 48; 41; 32; 38; 38; 32; 105; 100; 101; 110; 116; 105; 116; 121; 95; 112; 117; 116; 95; 105; 110; 116; 40; 48; 41; 59; 10; 32; 32; 32; 32; 112; 117; 116; 95; 98; 108; 97; 110; 107; 95; 108; 105; 110; 101; 40; 41; 59; 10; 10; 32; 32; 32; 32; 105; 100; 101; 110; 116; 105; 116; 121; 95; 112; 117; 116; 95; 105; 110; 116; 40; 55; 41; 32; 124; 124; 32; 105; 100; 101; 110; 116; 105; 116; 121; 95; 112; 117; 116; 95; 105; 110; 116; 40; 52; 41; 59; 10; 32; 32; 32; 32; 112; 117; 116; 95; 98; 108; 97; 110; 107; 95; 108; 105; 110; 101; 40; 41; 59; 10; 10; 32; 32; 32; 32; 105; 100; 101; 110; 116; 105; 116; 121; 95; 112; 117; 116; 95; 105; 110; 116; 40; 48; 41; 32; 124; 124; 32; 105; 100; 101; 110; 116; 105; 116; 121; 95; 112; 117; 116; 95; 105; 110; 116; 40; 52; 41; 59; 10; 32; 32; 32; 32; 112; 117; 116; 95; 98; 108; 97; 110; 107; 95; 108; 105; 110; 101; 40; 41; 59; 10; 10; 32; 32; 32; 32; 105; 100; 101; 110; 116; 105; 116; 121; 95; 112; 117; 116; 95; 105; 110; 116; 40; 55; 41; 32; 124; 124; 32; 105; 100; 101; 110; 116; 105; 116; 121; 95; 112; 117; 116; 95; 105; 110; 116; 40; 48; 41; 59; 10; 32; 32; 32; 32; 112; 117; 116; 95; 98; 108; 97; 110; 107; 95; 108; 105; 110; 101; 40; 41; 59; 10; 10; 32; 32; 32; 32; 105; 100; 101; 110; 116; 105; 116; 121; 95; 112; 117; 116; 95; 105; 110; 116; 40; 48; 41; 32; 124; 124; 32; 105; 100; 101; 110; 116; 105; 116; 121; 95; 112; 117; 116; 95; 105; 110; 116; 40; 48; 41; 59; 10; 10; 32; 32; 32; 32; 114; 101; 116; 117; 114; 110; 32; 48; 59; 10; 125; 10].
Example fixture_logical_ok : output_of (run_source 100000 src_logical) = Some
  [49; 10; 48; 10; 48; 10; 48; 10; 10; 49; 10; 49; 10; 49; 10; 48; 10; 10; 48; 10; 49; 10; 49; 10; 48; 10; 10; 55; 10; 52; 10; 10; 48; 10; 10; 55; 10; 48; 10; 10; 48; 10; 10; 55; 10; 10; 48; 10; 52; 10; 10; 55; 10; 10; 48; 10; 48; 10].
Proof. vm_compute. reflexivity. Qed.
(** test-fixtures/pointer *)
Definition src_pointer : list Z :=
  [118; 111; 105; 100; 32; 112; 117; 116; 95; 105; 110; 116; 40; 105; 110; 116; 32; 120; 41; 59; 10; 10; 105; 110; 116; 32; 109; 97; 105; 110; 40; 118; 111; 105; 100; 41; 32; 123; 10; 32; 32; 32; 32; 105; 110; 116; 32; 120; 44; 32; 121; 59; 10; 32; 32; 32; 32; 120; 32; 61; 32; 53; 59; 10; 32; 32; 32; 32; 121; 32; 61; 32; 56; 59; 10; 10; 32; 32; 32; 32; 105; 110; 116; 32; 42; 112; 44; 32; 42; 113; 59; 10; 32; 32; 32; 32; 112; 32; 61; 32; 38; 120; 59; 10; 32; 32; 32; 32; 113; 32; 61; 32; 38; 121; 59; 10; 10; 32; 32; 32; 32; 105; 110; 116; 32; 110; 59; 10; 32; 32; 32; 32; 110; 32; 61; 32; 50; 59; 10; 10; 32; 32; 32; 32; 105; 110; 116; 32; 122; 44; 32; 119; 59; 10; 32; 32; 32; 32; 105; 110; 116; 32; 42; 114; 32; 61; 32; 38; 122; 44; 32; 42; 115; 32; 61; 32; 38; 119; 59; 10; 10; 32; 32; 32; 32; 42; 114; 32; 61; 32; 42; 115; 32; 61; 32; 55; 59; 10; 10; 32; 32; 32; 32; 112; 117; 116; 95; 105; 110; 116; 40; 42; 38; 120; 41; 59; 10; 32; 32; 32; 32; 112; 117; 116; 95; 105; 110; 116; 40; 42; 38; 121; 41; 59; 10; 32; 32; 32; 32; 112; 117; 116; 95; 105; 110; 116; 40; 42; 112; 32; 61; 61; 32; 120; 41; 59; 10; 32; 32; 32; 32; 112; 117; 116; 95; 105; 110; 116; 40; 42; 113; 32; 61; 61; 32; 121; 41; 59; 10; 32; 32; 32; 32; 112; 117; 116; 95; 105; 110; 116; 40; 112; 32; 45; 32; 38; 120; 32; 61; 61; 32; 48; 41; 59; 10; 32; 32; 32; 32; 112; 117; 116; 95; 105; 110; 116; 40; 113; 32; 45; 32; 38; 121; 32; 61; 61; 32; 48; 41; 59; 10; 32; 32; 32; 32; 112; 117; 116; 95; 105; 110; 116; 40; 40; 112; 32; 43; 32; 110; 41; 32; 45; 32; 110; 32; 61; 61; 32; 112; 41; 59; 10; 32; 32; 32; 32; 112; 117; 116; 95; 105; 110; 116; 40; 40; 113; 32; 43; 32; 110; 41; 32; 45; 32; 110; 32; 61; 61; 32; 113; 41; 59; 10; 32; 32; 32; 32; 112; 117; 116; 95; 105; 110; 116; 40; 42; 114; 41; 59; 10; 32; 32; 32; 32; 112; 117; 116; 95; 105; 110; 116; 40; 42; 115; 41; 59; 10; 10; 32; 32; 32; 32; 114; 101; 116; 117; 114; 110; 32; 48; 59; 10; 125; 10].
Example fixture_pointer_ok : output_of (run_source 100000 src_pointer) = Some
  [53; 10; 56; 10; 49; 10; 49; 10; 49; 10; 49; 10; 49; 10; 49; 10; 55; 10; 55; 10].
Proof. vm_compute. reflexivity. Qed.
(** test-fixtures/stringliteral *)
Definition src_stringliteral : list Z :=
  [118; 111; 105; 100; 32; 112; 117; 116; 95; 115; 116; 114; 40; 99; 104; 97; 114; 42; 32; 115; 41; 59; 10; 118; 111; 105; 100; 32; 112; 117; 116; 95; 98; 108; 97; 110; 107; 95; 108; 105; 110; 101; 40; 118; 111; 105; 100; 41; 59; 10; 10; 99; 104; 97; 114; 32; 103; 108; 111; 98; 97; 108; 95; 97; 114; 114; 97; 121; 91; 50; 48; 93; 32; 61; 32; 34; 103; 108; 111; 98; 97; 108; 32; 99; 104; 97; 114; 32; 97; 114; 114; 97; 121; 34; 59; 10; 99; 104; 97; 114; 32; 116; 114; 105; 99; 107; 121; 95; 103; 108; 111; 98; 97; 108; 95; 97; 114; 114; 97; 121; 91; 50; 49; 93; 32; 61; 32; 34; 116; 114; 105; 99; 107; 121; 32; 103; 108; 111; 92; 48; 98; 97; 108; 32; 97; 114; 114; 97; 121; 34; 59; 10; 10; 105; 110; 116; 32; 109; 97; 105; 110; 40; 118; 111; 105; 100; 41; 32; 123; 10; 32; 32; 32; 32; 99; 104; 97; 114; 32; 108; 111; 99; 97; 108; 95; 97; 114; 114; 97; 121; 91; 49; 57; 93; 32; 61; 32; 34; 108; 111; 99; 97; 108; 32; 99; 104; 97; 114; 32; 97; 114; 114; 97; 121; 34; 59; 10; 32; 32; 32; 32; 99; 104; 97; 114; 32; 116; 114; 105; 99; 107; 121; 95; 108; 111; 99; 97; 108; 95; 97; 114; 114; 97; 121; 91; 50; 48; 93; 32; 61; 32; 34; 116; 114; 105; 99; 107; 121; 32; 108; 111; 92; 48; 99; 97; 108; 32; 97; 114; 114; 97; 121; 34; 59; 10; 32; 32; 32; 32; 99; 104; 97; 114; 42; 32; 108; 111; 99; 97; 108; 95; 112; 111; 105; 110; 116; 101; 114; 32; 61; 32; 34; 108; 111; 99; 97; 108; 32; 99; 104; 97; 114; 32; 112; 111; 105; 110; 116; 101; 114; 34; 59; 10; 32; 32; 32; 32; 99; 104; 97; 114; 42; 32; 116; 114; 105; 99; 107; 121; 95; 108; 111; 99; 97; 108; 95; 112; 111; 105; 110; 116; 101; 114; 32; 61; 32; 34; 108; 111; 99; 97; 108; 32; 99; 104; 92; 48; 97; 114; 32; 112; 111; 105; 110; 116; 101; 114; 34; 59; 10; 10; 32; 32; 32; 32; 112; 117; 116; 95; 115; 116; 114; 40; 103; 108; 111; 98; 97; 108; 95; 97; 114; 114; 97; 121; 41; 59; 10; 32; 32; 32; 32; 112; 117; 116; 95; 115; 116; 114; 40; 108; 111; 99; 97; 108; 95; 97; 114; 114; 97; 121; 41; 59; 10; 32; 32; 32; 32; 112; 117; 116; 95; 115; 116; 114; 40; 108; 111; 99; 97; 108; 95; 112; 111; 105; 110; 116; 101; 114; 41; 59; 10; 32; 32; 32; 32; 112; 117; 116; 95; 115; 116; 114; 40; 34; 105; 110; 108; 105; 110; 101; 32; 115; 116; 114; 105; 110; 103; 34; 41; 59; 10; 32; 32; 32; 32; 112; 117; 116; 95; 98; 108; 97; 110; 107; 95; 108; 105; 110; 101; 40; 41; 59; 10; 10; 32; 32; 32; 32; 112; 117; 116; 95; 115; 116; 114; 40; 116; 114; 105; 99; 107; 121; 95; 103; 108; 111; 98; 97; 108; 95; 97; 114; 114; 97; 121; 41; 59; 10; 32; 32; 32; 32; 112; 117; 116; 95; 115; 116; 114; 40; 116; 114; 105; 99; 107; 121; 95; 103; 108; 111; 98; 97; 108; 95; 97; 114; 114; 97; 121; 32; 43; 32; 49; 49; 41; 59; 10; 32; 32; 32; 32; 112; 117; 116; 95; 115; 116; 114; 40; 116; 114; 105; 99; 107; 121; 95; 108; 111; 99; 97; 108; 95; 97; 114; 114; 97; 121; 41; 59; 10; 32; 32; 32; 32; 112; 117; 116; 95; 115; 116; 114; 40; 116; 114; 105; 99; 107; 121; 95; 108; 111; 99; 97; 108; 95; 97; 114; 114; 97; 121; 32; 43; 32; 49; 48; 41; 59; 10; 32; 32; 32; 32; 112; 117; 116; 95; 115; 116; 114; 40; 116; 114; 105; 99; 107; 121; 95; 108; 111; 99; 97; 108; 95; 112; 111; 105; 110; 116; 101; 114; 41; 59; 10; 32; 32; 32; 32; 112; 117; 116; 95; 115; 116; 114; 40; 116; 114; 105; 99; 107; 121; 95; 108; 111; 99; 97; 108; 95; 112; 111; 105; 110; 116; 101; 114; 32; 43; 32; 57; 41; 59; 10; 32; 32; 32; 32; 112; 117; 116; 95; 115; 116; 114; 40; 34; 116; 114; 105; 99; 107; 121; 32; 105; 110; 108; 92; 48; 105; 110; 101; 32; 115; 116; 114; 105; 110; 103; 34; 41; 59; 10; 32; 32; 32; 32; 112; 117; 116; 95; 115; 116; 114; 40; 38; 34; 116; 114; 105; 99; 107; 121; 32; 105; 110; 108; 92; 48; 105; 110; 101; 32; 115; 116; 114; 105; 110; 103; 34; 91; 49; 49; 93; 41; 59; 10; 10; 32; 32; 32; 32; 114; 101; 116; 117; 114; 110; 32; 48; 59; 10; 125; 10].
Example fixture_stringliteral_ok : output_of (run_source 100000 src_stringliteral) = Some
  [103; 108; 111; 98; 97; 108; 32; 99; 104; 97; 114; 32; 97; 114; 114; 97; 121; 10; 108; 111; 99; 97; 108; 32; 99; 104; 97; 114; 32; 97; 114; 114; 97; 121; 10; 108; 111; 99; 97; 108; 32; 99; 104; 97; 114; 32; 112; 111; 105; 110; 116; 101; 114; 10; 105; 110; 108; 105; 110; 101; 32; 115; 116; 114; 105; 110; 103; 10; 10; 116; 114; 105; 99; 107; 121; 32; 103; 108; 111; 10; 98; 97; 108; 32; 97; 114; 114; 97; 121; 10; 116; 114; 105; 99; 107; 121; 32; 108; 111; 10; 99; 97; 108; 32; 97; 114; 114; 97; 121; 10; 108; 111; 99; 97; 108; 32; 99; 104; 10; 97; 114; 32; 112; 111; 105; 110; 116; 101; 114; 10; 116; 114; 105; 99; 107; 121; 32; 105; 110; 108; 10; 105; 110; 101; 32; 115; 116; 114; 105; 110; 103; 10].
Proof. vm_compute. reflexivity. Qed.
(** test-fixtures/struct *)
Definition src_struct : list Z :=
  [116; 121; 112; 101; 100; 101; 102; 32; 115; 116; 114; 117; 99; 116; 32; 78; 111; 100; 101; 32; 123; 10; 32; 32; 32; 32; 105; 110; 116; 32; 118; 97; 108; 117; 101; 59; 10; 32; 32; 32; 32; 115; 116; 114; 117; 99; 116; 32; 78; 111; 100; 101; 42; 32; 110; 101; 120; 116; 59; 10; 125; 32; 78; 111; 100; 101; 59; 10; 10; 78; 111; 100; 101; 42; 32; 110; 101; 119; 95; 110; 111; 100; 101; 40; 105; 110; 116; 32; 118; 97; 108; 117; 101; 41; 59; 10; 118; 111; 105; 100; 32; 100; 101; 108; 101; 116; 101; 95; 110; 111; 100; 101; 40; 78; 111; 100; 101; 42; 32; 110; 111; 100; 101; 41; 59; 10; 10; 118; 111; 105; 100; 32; 112; 117; 116; 95; 105; 110; 116; 40; 105; 110; 116; 32; 120; 41; 59; 10; 118; 111; 105; 100; 32; 112; 117; 116; 95; 98; 108; 97; 110; 107; 95; 108; 105; 110; 101; 40; 118; 111; 105; 100; 41; 59; 10; 10; 115; 116; 114; 117; 99; 116; 32; 123; 10; 32; 32; 32; 32; 99; 104; 97; 114; 32; 120; 59; 10; 32; 32; 32; 32; 105; 110; 116; 32; 97; 91; 51; 93; 59; 10; 125; 32; 103; 116; 101; 115; 116; 32; 61; 32; 123; 49; 50; 44; 32; 54; 44; 32; 49; 48; 125; 59; 10; 10; 78; 111; 100; 101; 32; 103; 110; 111; 100; 101; 32; 61; 32; 123; 53; 125; 59; 10; 10; 105; 110; 116; 32; 109; 97; 105; 110; 40; 118; 111; 105; 100; 41; 32; 123; 10; 32; 32; 32; 32; 115; 116; 114; 117; 99; 116; 32; 123; 10; 32; 32; 32; 32; 32; 32; 32; 32; 99; 104; 97; 114; 32; 120; 59; 10; 32; 32; 32; 32; 32; 32; 32; 32; 105; 110; 116; 32; 97; 91; 51; 93; 59; 10; 32; 32; 32; 32; 125; 32; 116; 101; 115; 116; 32; 61; 32; 123; 49; 125; 59; 10; 10; 32; 32; 32; 32; 112; 117; 116; 95; 105; 110; 116; 40; 103; 116; 101; 115; 116; 46; 120; 41; 59; 10; 32; 32; 32; 32; 112; 117; 116; 95; 105; 110; 116; 40; 103; 116; 101; 115; 116; 46; 97; 91; 48; 93; 41; 59; 10; 32; 32; 32; 32; 112; 117; 116; 95; 105; 110; 116; 40; 103; 116; 101; 115; 116; 46; 97; 91; 49; 93; 41; 59; 10; 32; 32; 32; 32; 112; 117; 116; 95; 105; 110; 116; 40; 103; 116; 101; 115; 116; 46; 97; 91; 50; 93; 41; 59; 10; 32; 32; 32; 32; 112; 117; 116; 95; 105; 110; 116; 40; 116; 101; 115; 116; 46; 120; 41; 59; 10; 32; 32; 32; 32; 112; 117; 116; 95; 105; 110; 116; 40; 116; 101; 115; 116; 46; 97; 91; 48; 93; 41; 59; 10; 32; 32; 32; 32; 112; 117; 116; 95; 105; 110; 116; 40; 116; 101; 115; 116; 46; 97; 91; 49; 93; 41; 59; 10; 32; 32; 32; 32; 112; 117; 116; 95; 105; 110; 116; 40; 116; 101; 115; 116; 46; 97; 91; 50; 93; 41; 59; 10; 32; 32; 32; 32; 112; 117; 116; 95; 98; 108; 97; 110; 107; 95; 108; 105; 110; 101; 40; 41; 59; 10; 10; 32; 32; 32; 32; 103; 116; 101; 115; 116; 46; 120; 32; 61; 32; 55; 59; 10; 32; 32; 32; 32; 103; 116; 101; 115; 116; 46; 97; 91; 48; 93; 32; 61; 32; 49; 49; 59; 10; 32; 32; 32; 32; 116; 101; 115; 116; 46; 97; 91; 50; 93; 32; 61; 32; 51; 59; 10; 32; 32; 32; 32; 116; 101; 115; 116; 46; 97; 91; 49; 93; 32; 61; 32; 50; 59; 10; 10; 32; 32; 32; 32; 112; 117; 116; 95; 105; 110; 116; 40; 103; 116; 101; 115; 116; 46; 120; 41; 59; 10; 32; 32; 32; 32; 112; 117; 116; 95; 105; 110; 116; 40; 103; 116; 101; 115; 116; 46; 97; 91; 48; 93; 41; 59; 10; 32; 32; 32; 32; 112; 117; 116; 95; 105; 110; 116; 40; 103; 116; 101; 115; 116; 46; 97; 91; 49; 93; 41; 59; 10; 32; 32; 32; 32; 112; 117; 116; 95; 105; 110; 116; 40; 103; 116; 101; 115; 116; 46; 97; 91; 50; 93; 41; 59; 10; 32; 32; 32; 32; 112; 117; 116; 95; 105; 110; 116; 40; 116; 101; 115; 116; 46; 120; 41; 59; 10; 32; 32; 32; 32; 112; 117; 116; 95; 105; 110; 116; 40; 116; 101; 115; 116; 46; 97; 91; 48; 93; 41; 59; 10; 32; 32; 32; 32; 112; 117; 116; 95; 105; 110; 116; 40; 116; 101; 115; 116; 46; 97; 91; 49; 93; 41; 59; 10; 32; 32; 32; 32; 112; 117; 116; 95; 105; 110; 116; 40; 116; 101; 115; 116; 46; 97; 91; 50; 93; 41; 59; 10; 32; 32; 32; 32; 112; 117; 116; 95; 98; 108; 97; 110; 107; 95; 108; 105; 110; 101; 40; 41; 59; 10; 10; 32; 32; 32; 32; 115; 116; 114; 117; 99; 116; 32; 67; 111; 111; 114; 100; 105; 110; 97; 116; 101; 32; 123; 10; 32; 32; 32; 32; 32; 32; 32; 32; 105; 110; 116; 32; 120; 59; 10; 32; 32; 32; 32; 32; 32; 32; 32; 105; 110; 116; 32; 121; 59; 10; 32; 32; 32; 32; 32; 32; 32; 32; 105; 110; 116; 32; 122; 59; 10; 32; 32; 32; 32; 125; 59; 10; 10; 32; 32; 32; 32; 115; 116; 114; 117; 99; 116; 32; 67; 111; 111; 114; 100; 105; 110; 97; 116; 101; 32; 112; 111; 105; 110; 116; 59; 10; 10; 32; 32; 32; 32; 112; 111; 105; 110; 116; 46; 121; 32; 61; 32; 50; 59; 10; 32; 32; 32; 32; 112; 111; 105; 110; 116; 46; 122; 32; 61; 32; 53; 59; 10; 32; 32; 32; 32; 112; 111; 105; 110; 116; 46; 120; 32; 61; 32; 51; 59; 10; 10; 32; 32; 32; 32; 112; 117; 116; 95; 105; 110; 116; 40; 112; 111; 105; 110; 116; 46; 120; 41; 59; 10; 32; 32; 32; 32; 112; 117; 116; 95; 105; 110; 116; 40; 112; 111; 105; 110; 116; 46; 121; 41; 59; 10; 32; 32; 32; 32; 112; 117; 116; 95; 105; 110; 116; 40; 112; 111; 105; 110; 116; 46; 122; 41; 59; 10; 32; 32; 32; 32; 112; 117; 116; 95; 98; 108; 97; 110; 107; 95; 108; 105; 110; 101; 40; 41; 59; 10; 10; 32; 32; 32; 32; 78; 111; 100; 101; 42; 32; 110; 111; 100; 101; 32; 61; 32; 110; 101; 119; 95; 110; 111; 100; 101; 40; 49; 48; 41; 59; 10; 32; 32; 32; 32; 110; 111; 100; 101; 45; 62; 110; 101; 120; 116; 32; 61; 32; 110; 101; 119; 95; 110; 111; 100; 101; 40; 50; 48; 41; 59; 10; 32; 32; 32; 32; 103; 110; 111; 100; 101; 46; 110; 101; 120; 116; 32; 61; 32; 110; 111; 100; 101; 59; 10; 32; 32; 32; 32; 112; 117; 116; 95; 105; 110; 116; 40; 103; 110; 111; 100; 101; 46; 118; 97; 108; 117; 101; 41; 59; 10; 32; 32; 32; 32; 112; 117; 116; 95; 105; 110; 116; 40; 103; 110; 111; 100; 101; 46; 110; 101; 120; 116; 45; 62; 118; 97; 108; 117; 101; 41; 59; 10; 32; 32; 32; 32; 112; 117; 116; 95; 105; 110; 116; 40; 103; 110; 111; 100; 101; 46; 110; 101; 120; 116; 45; 62; 110; 101; 120; 116; 45; 62; 118; 97; 108; 117; 101; 41; 59; 10; 10; 32; 32; 32; 32; 100; 101; 108; 101; 116; 101; 95; 110; 111; 100; 101; 40; 110; 111; 100; 101; 41; 59; 10; 10; 32; 32; 32; 32; 114; 101; 116; 117; 114; 110; 32; 48; 59; 10; 125; 10].
Example fixture_struct_ok : output_of (run_source 100000 src_struct) = Some
  [49; 50; 10; 54; 10; 49; 48; 10; 48; 10; 49; 10; 48; 10; 48; 10; 48; 10; 10; 55; 10; 49; 49; 10; 49; 48; 10; 48; 10; 49; 10; 48; 10; 50; 10; 51; 10; 10; 51; 10; 50; 10; 53; 10; 10; 53; 10; 49; 48; 10; 50; 48; 10].
Proof. vm_compute. reflexivity. Qed.
(** test-fixtures/switch *)
Definition src_switch : list Z :=
  [118; 111; 105; 100; 32; 112; 117; 116; 95; 105; 110; 116; 40; 105; 110; 116; 32; 120; 41; 59; 10; 118; 111; 105; 100; 32; 112; 117; 116; 95; 115; 116; 114; 40; 99; 104; 97; 114; 42; 32; 115; 41; 59; 10; 118; 111; 105; 100; 32; 112; 117; 116; 95; 98; 108; 97; 110; 107; 95; 108; 105; 110; 101; 40; 118; 111; 105; 100; 41; 59; 10; 10; 116; 121; 112; 101; 100; 101; 102; 32; 101; 110; 117; 109; 32; 73; 110; 116; 101; 103; 101; 114; 84; 121; 112; 101; 32; 123; 10; 32; 32; 32; 32; 73; 78; 84; 44; 10; 32; 32; 32; 32; 85; 78; 83; 73; 71; 78; 69; 68; 95; 73; 78; 84; 44; 10; 32; 32; 32; 32; 76; 79; 78; 71; 44; 10; 32; 32; 32; 32; 85; 78; 83; 73; 71; 78; 69; 68; 95; 76; 79; 78; 71; 44; 10; 32; 32; 32; 32; 76; 79; 78; 71; 95; 76; 79; 78; 71; 44; 10; 32; 32; 32; 32; 85; 78; 83; 73; 71; 78; 69; 68; 95; 76; 79; 78; 71; 95; 76; 79; 78; 71; 44; 10; 125; 32; 73; 110; 116; 101; 103; 101; 114; 84; 121; 112; 101; 59; 10; 10; 105; 110; 116; 32; 103; 101; 116; 95; 105; 110; 116; 101; 103; 101; 114; 95; 117; 110; 115; 105; 103; 110; 101; 100; 40; 73; 110; 116; 101; 103; 101; 114; 84; 121; 112; 101; 32; 116; 121; 112; 101; 41; 32; 123; 10; 32; 32; 32; 32; 115; 119; 105; 116; 99; 104; 32; 40; 116; 121; 112; 101; 41; 32; 123; 10; 32; 32; 32; 32; 32; 32; 32; 32; 99; 97; 115; 101; 32; 85; 78; 83; 73; 71; 78; 69; 68; 95; 73; 78; 84; 58; 10; 32; 32; 32; 32; 32; 32; 32; 32; 99; 97; 115; 101; 32; 85; 78; 83; 73; 71; 78; 69; 68; 95; 76; 79; 78; 71; 58; 10; 32; 32; 32; 32; 32; 32; 32; 32; 99; 97; 115; 101; 32; 85; 78; 83; 73; 71; 78; 69; 68; 95; 76; 79; 78; 71; 95; 76; 79; 78; 71; 58; 10; 32; 32; 32; 32; 32; 32; 32; 32; 32; 32; 32; 32; 114; 101; 116; 117; 114; 110; 32; 49; 59; 10; 32; 32; 32; 32; 32; 32; 32; 32; 100; 101; 102; 97; 117; 108; 116; 58; 10; 32; 32; 32; 32; 32; 32; 32; 32; 32; 32; 32; 32; 114; 101; 116; 117; 114; 110; 32; 48; 59; 10; 32; 32; 32; 32; 125; 10; 125; 10; 10; 118; 111; 105; 100; 32; 112; 117; 116; 95; 105; 110; 116; 101; 103; 101; 114; 95; 115; 105; 122; 101; 40; 73; 110; 116; 101; 103; 101; 114; 84; 121; 112; 101; 32; 116; 121; 112; 101; 41; 32; 123; 10; 32; 32; 32; 32; 115; 119; 105; 116; 99; 104; 32; 40; 116; 121; 112; 101; 41; 32; 123; 10; 32; 32; 32; 32; 32; 32; 32; 32; 99; 97; 115; 101; 32; 73; 78; 84; 58; 10; 32; 32; 32; 32; 32; 32; 32; 32; 99; 97; 115; 101; 32; 85; 78; 83; 73; 71; 78; 69; 68; 95; 73; 78; 84; 58; 10; 32; 32; 32; 32; 32; 32; 32; 32; 32; 32; 32; 32; 112; 117; 116; 95; 105; 110; 116; 40; 52; 41; 59; 10; 32; 32; 32; 32; 32; 32; 32; 32; 32; 32; 32; 32; 98; 114; 101; 97; 107; 59; 10; 32; 32; 32; 32; 32; 32; 32; 32; 99; 97; 115; 101; 32; 76; 79; 78; 71; 58; 10; 32; 32; 32; 32; 32; 32; 32; 32; 99; 97; 115; 101; 32; 85; 78; 83; 73; 71; 78; 69; 68; 95; 76; 79; 78; 71; 58; 10; 32; 32; 32; 32; 32; 32; 32; 32; 32; 32; 32; 32; 112; 117; 116; 95; 105; 110; 116; 40; 56; 41; 59; 10; 32; 32; 32; 32; 32; 32; 32; 32; 32; 32; 32; 32; 98; 114; 101; 97; 107; 59; 10; 32; 32; 32; 32; 32; 32; 32; 32; 99; 97; 115; 101; 32; 76; 79; 78; 71; 95; 76; 79; 78; 71; 58; 10; 32; 32; 32; 32; 32; 32; 32; 32; 99; 97; 115; 101; 32; 85; 78; 83; 73; 71; 78; 69; 68; 95; 76; 79; 78; 71; 95; 76; 79; 78; 71; 58; 10; 32; 32; 32; 32; 32; 32; 32; 32; 32; 32; 32; 32; 112; 117; 116; 95; 105; 110; 116; 40; 56; 41; 59; 10; 32; 32; 32; 32; 32; 32; 32; 32; 32; 32; 32; 32; 98; 114; 101; 97; 107; 59; 10; 32; 32; 32; 32; 125; 10; 125; 10; 10; 118; 111; 105; 100; 32; 112; 117; 116; 95; 105; 110; 116; 101; 103; 101; 114; 95; 116; 121; 112; 101; 95; 110; 97; 109; 101; 40; 73; 110; 116; 101; 103; 101; 114; 84; 121; 112; 101; 32; 116; 121; 112; 101; 41; 32; 123; 10; 32; 32; 32; 32; 115; 119; 105; 116; 99; 104; 32; 40; 116; 121; 112; 101; 41; 32; 123; 10; 32; 32; 32; 32; 32; 32; 32; 32; 99; 97; 115; 101; 32; 73; 78; 84; 58; 10; 32; 32; 32; 32; 32; 32; 32; 32; 32; 32; 32; 32; 112; 117; 116; 95; 115; 116; 114; 40; 34; 105; 110; 116; 34; 41; 59; 10; 32; 32; 32; 32; 32; 32; 32; 32; 32; 32; 32; 32; 98; 114; 101; 97; 107; 59; 10; 32; 32; 32; 32; 32; 32; 32; 32; 99; 97; 115; 101; 32; 85; 78; 83; 73; 71; 78; 69; 68; 95; 73; 78; 84; 58; 10; 32; 32; 32; 32; 32; 32; 32; 32; 32; 32; 32; 32; 112; 117; 116; 95; 115; 116; 114; 40; 34; 117; 110; 115; 105; 103; 110; 101; 100; 32; 105; 110; 116; 34; 41; 59; 10; 32; 32; 32; 32; 32; 32; 32; 32; 32; 32; 32; 32; 98; 114; 101; 97; 107; 59; 10; 32; 32; 32; 32; 32; 32; 32; 32; 99; 97; 115; 101; 32; 76; 79; 78; 71; 58; 10; 32; 32; 32; 32; 32; 32; 32; 32; 32; 32; 32; 32; 112; 117; 116; 95; 115; 116; 114; 40; 34; 108; 111; 110; 103; 34; 41; 59; 10; 32; 32; 32; 32; 32; 32; 32; 32; 32; 32; 32; 32; 98; 114; 101; 97; 107; 59; 10; 32; 32; 32; 32; 32; 32; 32; 32; 99; 97; 115; 101; 32; 85; 78; 83; 73; 71; 78; 69; 68; 95; 76; 79; 78; 71; 58; 10; 32; 32; 32; 32; 32; 32; 32; 32; 32; 32; 32; 32; 112; 117; 116; 95; 115; 116; 114; 40; 34; 117; 110; 115; 105; 103; 110; 101; 100; 32; 108; 111; 110; 103; 34; 41; 59; 10; 32; 32; 32; 32; 32; 32; 32; 32; 32; 32; 32; 32; 98; 114; 101; 97; 107; 59; 10; 32; 32; 32; 32; 32; 32; 32; 32; 99; 97; 115; 101; 32; 76; 79; 78; 71; 95; 76; 79; 78; 71; 58; 10; 32; 32; 32; 32; 32; 32; 32; 32; 32; 32; 32; 32; 112; 117; 116; 95; 115; 116; 114; 40; 34; 108; 111; 110; 103; 32; 108; 111; 110; 103; 34; 41; 59; 10; 32; 32; 32; 32; 32; 32; 32; 32; 32; 32; 32; 32; 98; 114; 101; 97; 107; 59; 10; 32; 32; 32; 32; 32; 32; 32; 32; 99; 97; 115; 101; 32; 85; 78; 83; 73; 71; 78; 69; 68; 95; 76; 79; 78; 71; 95; 76; 79; 78; 71; 58; 10; 32; 32; 32; 32; 32; 32; 32; 32; 32; 32; 32; 32; 112; 117; 116; 95; 115; 116; 114; 40; 34; 117; 110; 115; 105; 103; 110; 101; 100; 32; 108; 111; 110; 103; 32; 108; 111; 110; 103; 34; 41; 59; 10; 32; 32; 32; 32; 32; 32; 32; 32; 32; 32; 32; 32; 98; 114; 101; 97; 107; 59; 10; 32; 32; 32; 32; 125; 10; 125; 10; 10; 105; 110; 116; 32; 118; 97; 114; 105; 111; 117; 115; 95; 105; 110; 116; 101; 103; 101; 114; 95; 108; 105; 116; 101; 114; 97; 108; 40; 105; 110; 116; 32; 120; 41; 32; 123; 10; 32; 32; 32; 32; 115; 119; 105; 116; 99; 104; 32; 40; 120; 41; 32; 123; 10; 32; 32; 32; 32; 32; 32; 32; 32; 99; 97; 115; 101; 32; 51; 58; 10; 32; 32; 32; 32; 32; 32; 32; 32; 32; 32; 32; 32; 114; 101; 116; 117; 114; 110; 32; 51; 59; 10; 32; 32; 32; 32; 32; 32; 32; 32; 100; 101; 102; 97; 117; 108; 116; 58; 10; 32; 32; 32; 32; 32; 32; 32; 32; 32; 32; 32; 32; 114; 101; 116; 117; 114; 110; 32; 45; 49; 59; 10; 32; 32; 32; 32; 32; 32; 32; 32; 99; 97; 115; 101; 32; 49; 76; 58; 10; 32; 32; 32; 32; 32; 32; 32; 32; 32; 32; 32; 32; 114; 101; 116; 117; 114; 110; 32; 49; 48; 59; 10; 32; 32; 32; 32; 32; 32; 32; 32; 99; 97; 115; 101; 32; 50; 76; 76; 58; 10; 32; 32; 32; 32; 32; 32; 32; 32; 32; 32; 32; 32; 114; 101; 116; 117; 114; 110; 32; 50; 48; 48; 59; 10; 32; 32; 32; 32; 125; 10; 125; 10; 10; 105; 110; 116; 32; 109; 97; 105; 110; 40; 118; 111; 105; 100; 41; 32; 123; 10; 32; 32; 32; 32; 112; 117; 116; 95; 105; 110; 116; 40; 103; 101; 116; 95; 105; 110; 116; 101; 103; 101; 114; 95; 117; 110; 115; 105; 103; 110; 101; 100; 40; 73; 78; 84; 41; 41; 59; 10; 32; 32; 32; 32; 112; 117; 116; 95; 105; 110; 116; 40; 103; 101; 116; 95; 105; 110; 116; 101; 103; 101; 114; 95; 117; 110; 115; 105; 103; 110; 101; 100; 40; 85; 78; 83; 73; 71; 78; 69; 68; 95; 73; 78; 84; 41; 41; 59; 10; 32; 32; 32; 32; 112; 117; 116; 95; 105; 110; 116; 40; 103; 101; 116; 95; 105; 110; 116; 101; 103; 101; 114; 95; 117; 110; 115; 105; 103; 110; 101; 100; 40; 76; 79; 78; 71; 41; 41; 59; 10; 32; 32; 32; 32; 112; 117; 116; 95; 105; 110; 116; 40; 103; 101; 116; 95; 105; 110; 116; 101; 103; 101; 114; 95; 117; 110; 115; 105; 103; 110; 101; 100; 40; 85; 78; 83; 73; 71; 78; 69; 68; 95; 76; 79; 78; 71; 41; 41; 59; 10; 32; 32; 32; 32; 112; 117; 116; 95; 105; 110; 116; 40; 103; 101; 116; 95; 105; 110; 116; 101; 103; 101; 114; 95; 117; 110; 115; 105; 103; 110; 101; 100; 40; 76; 79; 78; 71; 95; 76; 79; 78; 71; 41; 41; 59; 10; 32; 32; 32; 32; 112; 117; 116; 95; 105; 110; 116; 40; 103; 101; 116; 95; 105; 110; 116; 101; 103; 101; 114; 95; 117; 110; 115; 105; 103; 110; 101; 100; 40; 85; 78; 83; 73; 71; 78; 69; 68; 95; 76; 79; 78; 71; 95; 76; 79; 78; 71; 41; 41; 59; 10; 32; 32; 32; 32; 112; 117; 116; 95; 98; 108; 97; 110; 107; 95; 108; 105; 110; 101; 40; 41; 59; 10; 10; 32; 32; 32; 32; 112; 117; 116; 95; 105; 110; 116; 101; 103; 101; 114; 95; 115; 105; 122; 101; 40; 73; 78; 84; 41; 59; 10; 32; 32; 32; 32; 112; 117; 116; 95; 105; 110; 116; 101; 103; 101; 114; 95; 115; 105; 122; 101; 40; 85; 78; 83; 73; 71; 78; 69; 68; 95; 73; 78; 84; 41; 59; 10; 32; 32; 32; 32; 112; 117; 116; 95; 105; 110; 116; 101; 103; 101; 114; 95; 115; 105; 122; 101; 40; 76; 79; 78; 71; 41; 59; 10; 32; 32; 32; 32; 112; 117; 116; 95; 105; 110; 116; 101; 103; 101; 114; 95; 115; 105; 122; 101; 40; 85; 78; 83; 73; 71; 78; 69; 68; 95; 76; 79; 78; 71; 41; 59; 10; 32; 32; 32; 32; 112; 117; 116; 95; 105; 110; 116; 101; 103; 101; 114; 95; 115; 105; 122; 101; 40; 76; 79; 78; 71; 95; 76; 79; 78; 71; 41; 59; 10; 32; 32; 32; 32; 112; 117; 116; 95; 105; 110; 116; 101; 103; 101; 114; 95; 115; 105; 122; 101; 40; 85; 78; 83; 73; 71; 78; 69; 68; 95; 76; 79; 78; 71; 95; 76; 79; 78; 71; 41; 59; 10; 32; 32; 32; 32; 112; 117; 116; 95; 98; 108; 97; 110; 107; 95; 108; 105; 110; 101; 40; 41; 59; 10; 10; 32; 32; 32; 32; 112; 117; 116; 95; 105; 110; 116; 101; 103; 101; 114; 95; 116; 121; 112; 101; 95; 110; 97; 109; 101; 40; 73; 78; 84; 41; 59; 10; 32; 32; 32; 32; 112; 117; 116; 95; 105; 110; 116; 101; 103; 101; 114; 95; 116; 121; 112; 101; 95; 110; 97; 109; 101; 40; 85; 78; 83; 73; 71; 78; 69; 68; 95; 73; 78; 84; 41; 59; 10; 32; 32; 32; 32; 112; 117; 116; 95; 105; 110; 116; 101; 103; 101; 114; 95; 116; 121; 112; 101; 95; 110; 97; 109; 101; 40; 76; 79; 78; 71; 41; 59; 10; 32; 32; 32; 32; 112; 117; 116; 95; 105; 110; 116; 101; 103; 101; 114; 95; 116; 121; 112; 101; 95; 110; 97; 109; 101; 40; 85; 78; 83; 73; 71; 78; 69; 68; 95; 76; 79; 78; 71; 41; 59; 10; 32; 32; 32; 32; 112; 117; 116; 95; 105; 110; 116; 101; 103; 101; 114; 95; 116; 121; 112; 101; 95; 110; 97; 109; 101; 40; 76; 79; 78; 71; 95; 76; 79; 78; 71; 41; 59; 10; 32; 32; 32; 32; 112; 117; 116; 95; 105; 110; 116; 101; 103; 101; 114; 95; 116; 121; 112; 101; 95; 110; 97; 109; 101; 40; 85; 78; 83; 73; 71; 78; 69; 68; 95; 76; 79; 78; 71; 95; 76; 79; 78; 71; 41; 59; 10; 32; 32; 32; 32; 112; 117; 116; 95; 98; 108; 97; 110; 107; 95; 108; 105; 110; 101; 40; 41; 59; 10; 10; 32; 32; 32; 32; 112; 117; 116; 95; 105; 110; 116; 40; 118; 97; 114; 105; 111; 117; 115; 95; 105; 110; 116; 101; 103; 101; 114; 95; 108; 105; 116; 101; 114; 97; 108; 40; 48; 41; 41; 59; 10; 32; 32; 32; 32; 112; 117; 116; 95; 105; 110; 116; 40; 118; 97; 114; 105; 111; 117; 115; 95; 105; 110; 116; 101; 103; 101; 114; 95; 108; 105; 116; 101; 114; 97; 108; 40; 49; 41; 41; 59; 10; 32; 32; 32; 32; 112; 117; 116; 95; 105; 110; 116; 40; 118; 97; 114; 105; 111; 117; 115; 95; 105; 110; 116; 101; 103; 101; 114; 95; 108; 105; 116; 101; 114; 97; 108; 40; 50; 41; 41; 59; 10; 32; 32; 32; 32; 112; 117; 116; 95; 105; 110; 116; 40; 118; 97; 114; 105; 111; 117; 115; 95; 105; 110; 116; 101; 103; 101; 114; 95; 108; 105; 116; 101; 114; 97; 108; 40; 51; 41; 41; 59; 10; 32; 32; 32; 32; 112; 117; 116; 95; 98; 108; 97; 110; 107; 95; 108; 105; 110; 101; 40; 41; 59; 10; 10; 32; 32; 32; 32; 114; 101; 116; 117; 114; 110; 32; 48; 59; 10; 125; 10].
Example fixture_switch_ok : output_of (run_source 100000 src_switch) = Some
  [48; 10; 49; 10; 48; 10; 49; 10; 48; 10; 49; 10; 10; 52; 10; 52; 10; 56; 10; 56; 10; 56; 10; 56; 10; 10; 105; 110; 116; 10; 117; 110; 115; 105; 103; 110; 101; 100; 32; 105; 110; 116; 10; 108; 111; 110; 103; 10; 117; 110; 115; 105; 103; 110; 101; 100; 32; 108; 111; 110; 103; 10; 108; 111; 110; 103; 32; 108; 111; 110; 103; 10; 117; 110; 115; 105; 103; 110; 101; 100; 32; 108; 111; 110; 103; 32; 108; 111; 110; 103; 10; 10; 45; 49; 10; 49; 48; 10; 50; 48; 48; 10; 51; 10; 10].
Proof. vm_compute. reflexivity. Qed.
(** test-fixtures/typedef *)
Definition src_typedef : list Z :=
  [116; 121; 112; 101; 100; 101; 102; 32; 105; 110; 116; 32; 116; 101; 115; 116; 95; 105; 110; 116; 44; 32; 42; 116; 101; 115; 116; 95; 105; 110; 116; 112; 116; 114; 59; 10; 10; 118; 111; 105; 100; 32; 112; 117; 116; 95; 105; 110; 116; 40; 116; 101; 115; 116; 95; 105; 110; 116; 32; 120; 41; 59; 10; 118; 111; 105; 100; 32; 112; 117; 116; 95; 115; 116; 114; 40; 99; 104; 97; 114; 42; 32; 115; 41; 59; 10; 118; 111; 105; 100; 32; 112; 117; 116; 95; 98; 108; 97; 110; 107; 95; 108; 105; 110; 101; 40; 118; 111; 105; 100; 41; 59; 10; 10; 105; 110; 116; 32; 109; 97; 105; 110; 40; 118; 111; 105; 100; 41; 32; 123; 10; 32; 32; 32; 32; 116; 101; 115; 116; 95; 105; 110; 116; 32; 97; 44; 32; 98; 59; 10; 32; 32; 32; 32; 116; 101; 115; 116; 95; 105; 110; 116; 112; 116; 114; 32; 112; 44; 32; 113; 59; 10; 32; 32; 32; 32; 97; 32; 61; 32; 56; 59; 10; 32; 32; 32; 32; 98; 32; 61; 32; 49; 51; 59; 10; 32; 32; 32; 32; 112; 32; 61; 32; 38; 97; 59; 10; 32; 32; 32; 32; 113; 32; 61; 32; 38; 98; 59; 10; 10; 32; 32; 32; 32; 112; 117; 116; 95; 105; 110; 116; 40; 97; 41; 59; 10; 32; 32; 32; 32; 112; 117; 116; 95; 105; 110; 116; 40; 98; 41; 59; 10; 32; 32; 32; 32; 112; 117; 116; 95; 105; 110; 116; 40; 42; 112; 41; 59; 10; 32; 32; 32; 32; 112; 117; 116; 95; 105; 110; 116; 40; 42; 113; 41; 59; 10; 32; 32; 32; 32; 112; 117; 116; 95; 105; 110; 116; 40; 112; 32; 61; 61; 32; 38; 97; 41; 59; 10; 32; 32; 32; 32; 112; 117; 116; 95; 105; 110; 116; 40; 113; 32; 61; 61; 32; 38; 98; 41; 59; 10; 32; 32; 32; 32; 112; 117; 116; 95; 98; 108; 97; 110; 107; 95; 108; 105; 110; 101; 40; 41; 59; 10; 10; 32; 32; 32; 32; 99; 104; 97; 114; 32; 116; 121; 112; 101; 100; 101; 102; 32; 116; 101; 115; 116; 95; 99; 104; 97; 114; 59; 10; 32; 32; 32; 32; 116; 101; 115; 116; 95; 99; 104; 97; 114; 32; 120; 32; 61; 32; 50; 48; 44; 32; 121; 32; 61; 32; 52; 48; 44; 32; 122; 32; 61; 32; 53; 48; 44; 32; 119; 32; 61; 32; 49; 48; 59; 10; 32; 32; 32; 32; 112; 117; 116; 95; 105; 110; 116; 40; 40; 120; 32; 42; 32; 121; 32; 43; 32; 122; 41; 32; 47; 32; 119; 41; 59; 10; 32; 32; 32; 32; 123; 10; 32; 32; 32; 32; 32; 32; 32; 32; 99; 104; 97; 114; 32; 116; 121; 112; 101; 100; 101; 102; 42; 32; 115; 116; 114; 105; 110; 103; 59; 10; 32; 32; 32; 32; 32; 32; 32; 32; 115; 116; 114; 105; 110; 103; 32; 115; 32; 61; 32; 34; 112; 116; 114; 32; 115; 116; 114; 105; 110; 103; 34; 59; 10; 32; 32; 32; 32; 32; 32; 32; 32; 112; 117; 116; 95; 115; 116; 114; 40; 115; 41; 59; 10; 32; 32; 32; 32; 125; 10; 10; 32; 32; 32; 32; 123; 10; 32; 32; 32; 32; 32; 32; 32; 32; 99; 104; 97; 114; 32; 116; 121; 112; 101; 100; 101; 102; 32; 115; 116; 114; 105; 110; 103; 91; 49; 52; 93; 59; 10; 32; 32; 32; 32; 32; 32; 32; 32; 115; 116; 114; 105; 110; 103; 32; 115; 32; 61; 32; 34; 97; 114; 114; 97; 121; 32; 115; 116; 114; 105; 110; 103; 34; 59; 10; 32; 32; 32; 32; 32; 32; 32; 32; 112; 117; 116; 95; 115; 116; 114; 40; 115; 41; 59; 10; 32; 32; 32; 32; 32; 32; 32; 32; 112; 117; 116; 95; 105; 110; 116; 40; 115; 91; 49; 51; 93; 41; 59; 10; 32; 32; 32; 32; 125; 10; 10; 32; 32; 32; 32; 114; 101; 116; 117; 114; 110; 32; 48; 59; 10; 125; 10].
Example fixture_typedef_ok : output_of (run_source 100000 src_typedef) = Some
  [56; 10; 49; 51; 10; 56; 10; 49; 51; 10; 49; 10; 49; 10; 10; 56; 53; 10; 112; 116; 114; 32; 115; 116; 114; 105; 110; 103; 10; 97; 114; 114; 97; 121; 32; 115; 116; 114; 105; 110; 103; 10; 48; 10].
Proof. vm_compute. reflexivity. Qed.
(** test-fixtures/void *)
Definition src_void : list Z :=
  [118; 111; 105; 100; 42; 32; 109; 97; 108; 108; 111; 99; 40; 105; 110; 116; 32; 110; 41; 59; 10; 118; 111; 105; 100; 32; 102; 114; 101; 101; 40; 118; 111; 105; 100; 42; 32; 112; 41; 59; 10; 118; 111; 105; 100; 32; 112; 117; 116; 115; 40; 99; 104; 97; 114; 42; 32; 115; 41; 59; 10; 10; 118; 111; 105; 100; 32; 112; 117; 116; 95; 105; 110; 116; 40; 105; 110; 116; 41; 59; 10; 118; 111; 105; 100; 32; 112; 117; 116; 95; 98; 108; 97; 110; 107; 95; 108; 105; 110; 101; 40; 118; 111; 105; 100; 41; 59; 10; 10; 118; 111; 105; 100; 32; 112; 117; 116; 95; 104; 101; 108; 108; 111; 119; 111; 114; 108; 100; 40; 118; 111; 105; 100; 41; 32; 123; 10; 32; 32; 32; 32; 112; 117; 116; 115; 40; 34; 72; 101; 108; 108; 111; 32; 87; 111; 114; 108; 100; 34; 41; 59; 10; 125; 10; 10; 105; 110; 116; 32; 109; 97; 105; 110; 40; 118; 111; 105; 100; 41; 32; 123; 10; 32; 32; 32; 32; 112; 117; 116; 95; 104; 101; 108; 108; 111; 119; 111; 114; 108; 100; 40; 41; 59; 10; 32; 32; 32; 32; 112; 117; 116; 95; 98; 108; 97; 110; 107; 95; 108; 105; 110; 101; 40; 41; 59; 10; 10; 32; 32; 32; 32; 116; 121; 112; 101; 100; 101; 102; 32; 115; 116; 114; 117; 99; 116; 32; 123; 10; 32; 32; 32; 32; 32; 32; 32; 32; 105; 110; 116; 32; 120; 59; 10; 32; 32; 32; 32; 125; 32; 86; 111; 105; 100; 83; 116; 114; 117; 99; 116; 59; 10; 32; 32; 32; 32; 86; 111; 105; 100; 83; 116; 114; 117; 99; 116; 42; 32; 115; 32; 61; 32; 109; 97; 108; 108; 111; 99; 40; 52; 41; 59; 10; 32; 32; 32; 32; 115; 45; 62; 120; 32; 61; 32; 55; 59; 10; 32; 32; 32; 32; 112; 117; 116; 95; 105; 110; 116; 40; 115; 45; 62; 120; 41; 59; 10; 32; 32; 32; 32; 115; 45; 62; 120; 32; 61; 32; 115; 45; 62; 120; 32; 42; 32; 115; 45; 62; 120; 59; 10; 32; 32; 32; 32; 112; 117; 116; 95; 105; 110; 116; 40; 115; 45; 62; 120; 41; 59; 10; 32; 32; 32; 32; 102; 114; 101; 101; 40; 115; 41; 59; 10; 10; 32; 32; 32; 32; 114; 101; 116; 117; 114; 110; 32; 48; 59; 10; 125; 10].
Example fixture_void_ok : output_of (run_source 100000 src_void) = Some
  [72; 101; 108; 108; 111; 32; 87; 111; 114; 108; 100; 10; 10; 55; 10; 52; 57; 10].
Proof. vm_compute. reflexivity. Qed.
(** test-fixtures/while *)
Definition src_while : list Z :=
  [118; 111; 105; 100; 32; 112; 117; 116; 95; 105; 110; 116; 40; 105; 110; 116; 32; 120; 41; 59; 10; 118; 111; 105; 100; 32; 112; 117; 116; 95; 115; 116; 114; 40; 99; 104; 97; 114; 42; 32; 115; 116; 114; 41; 59; 10; 118; 111; 105; 100; 32; 112; 117; 116; 95; 98; 108; 97; 110; 107; 95; 108; 105; 110; 101; 40; 118; 111; 105; 100; 41; 59; 10; 10; 105; 110; 116; 32; 109; 97; 105; 110; 40; 118; 111; 105; 100; 41; 32; 123; 10; 10; 32; 32; 32; 32; 119; 104; 105; 108; 101; 32; 40; 48; 41; 32; 123; 10; 32; 32; 32; 32; 32; 32; 32; 32; 112; 117; 116; 95; 115; 116; 114; 40; 34; 69; 82; 82; 79; 82; 58; 32; 119; 104; 105; 108; 101; 32; 108; 111; 111; 112; 32; 115; 104; 111; 117; 108; 100; 32; 110; 111; 116; 32; 98; 101; 32; 101; 120; 101; 99; 117; 116; 101; 100; 34; 41; 59; 10; 32; 32; 32; 32; 125; 10; 10; 32; 32; 32; 32; 105; 110; 116; 32; 120; 32; 61; 32; 48; 59; 10; 32; 32; 32; 32; 119; 104; 105; 108; 101; 32; 40; 120; 32; 60; 32; 53; 41; 32; 123; 10; 32; 32; 32; 32; 32; 32; 32; 32; 112; 117; 116; 95; 105; 110; 116; 40; 120; 41; 59; 10; 32; 32; 32; 32; 32; 32; 32; 32; 120; 43; 43; 59; 10; 32; 32; 32; 32; 125; 10; 32; 32; 32; 32; 112; 117; 116; 95; 98; 108; 97; 110; 107; 95; 108; 105; 110; 101; 40; 41; 59; 10; 10; 32; 32; 32; 32; 105; 110; 116; 32; 121; 32; 61; 32; 48; 59; 10; 32; 32; 32; 32; 105; 110; 116; 32; 122; 32; 61; 32; 49; 59; 10; 32; 32; 32; 32; 119; 104; 105; 108; 101; 32; 40; 121; 32; 60; 32; 49; 48; 41; 32; 123; 10; 32; 32; 32; 32; 32; 32; 32; 32; 122; 32; 61; 32; 50; 32; 42; 32; 122; 59; 10; 32; 32; 32; 32; 32; 32; 32; 32; 121; 43; 43; 59; 10; 32; 32; 32; 32; 32; 32; 32; 32; 112; 117; 116; 95; 105; 110; 116; 40; 122; 41; 59; 10; 32; 32; 32; 32; 125; 10; 32; 32; 32; 32; 112; 117; 116; 95; 98; 108; 97; 110; 107; 95; 108; 105; 110; 101; 40; 41; 59; 10; 10; 32; 32; 32; 32; 121; 32; 61; 32; 48; 59; 10; 32; 32; 32; 32; 119; 104; 105; 108; 101; 32; 40; 49; 41; 32; 123; 10; 32; 32; 32; 32; 32; 32; 32; 32; 105; 102; 32; 40; 121; 32; 62; 32; 49; 48; 41; 32; 123; 10; 32; 32; 32; 32; 32; 32; 32; 32; 32; 32; 32; 32; 98; 114; 101; 97; 107; 59; 10; 32; 32; 32; 32; 32; 32; 32; 32; 125; 10; 32; 32; 32; 32; 32; 32; 32; 32; 112; 117; 116; 95; 105; 110; 116; 40; 121; 41; 59; 10; 32; 32; 32; 32; 32; 32; 32; 32; 121; 32; 43; 61; 32; 50; 59; 10; 32; 32; 32; 32; 125; 10; 32; 32; 32; 32; 112; 117; 116; 95; 98; 108; 97; 110; 107; 95; 108; 105; 110; 101; 40; 41; 59; 10; 10; 32; 32; 32; 32; 121; 32; 61; 32; 48; 59; 10; 32; 32; 32; 32; 119; 104; 105; 108; 101; 32; 40; 121; 32; 60; 32; 53; 41; 32; 123; 10; 32; 32; 32; 32; 32; 32; 32; 32; 105; 102; 32; 40; 121; 32; 37; 32; 50; 32; 61; 61; 32; 48; 41; 32; 123; 10; 32; 32; 32; 32; 32; 32; 32; 32; 32; 32; 32; 32; 121; 43; 43; 59; 10; 32; 32; 32; 32; 32; 32; 32; 32; 32; 32; 32; 32; 99; 111; 110; 116; 105; 110; 117; 101; 59; 10; 32; 32; 32; 32; 32; 32; 32; 32; 125; 10; 32; 32; 32; 32; 32; 32; 32; 32; 112; 117; 116; 95; 105; 110; 116; 40; 121; 41; 59; 10; 32; 32; 32; 32; 32; 32; 32; 32; 121; 43; 43; 59; 10; 32; 32; 32; 32; 125; 10; 32; 32; 32; 32; 112; 117; 116; 95; 98; 108; 97; 110; 107; 95; 108; 105; 110; 101; 40; 41; 59; 10; 10; 32; 32; 32; 32; 114; 101; 116; 117; 114; 110; 32; 48; 59; 10; 125; 10].
Example fixture_while_ok : output_of (run_source 100000 src_while) = Some
  [48; 10; 49; 10; 50; 10; 51; 10; 52; 10; 10; 50; 10; 52; 10; 56; 10; 49; 54; 10; 51; 50; 10; 54; 52; 10; 49; 50; 56; 10; 50; 53; 54; 10; 53; 49; 50; 10; 49; 48; 50; 52; 10; 10; 48; 10; 50; 10; 52; 10; 54; 10; 56; 10; 49; 48; 10; 10; 49; 10; 51; 10; 10].
Proof. vm_compute. reflexivity. Qed.
(** test-fixtures/x-linkedlist *)
Definition src_x_linkedlist : list Z :=
  [118; 111; 105; 100; 32; 112; 117; 116; 95; 105; 110; 116; 40; 105; 110; 116; 32; 120; 41; 59; 10; 118; 111; 105; 100; 42; 32; 109; 97; 108; 108; 111; 99; 40; 105; 110; 116; 32; 110; 41; 59; 10; 118; 111; 105; 100; 32; 102; 114; 101; 101; 40; 118; 111; 105; 100; 42; 41; 59; 10; 10; 116; 121; 112; 101; 100; 101; 102; 32; 115; 116; 114; 117; 99; 116; 32; 76; 105; 110; 107; 101; 100; 76; 105; 115; 116; 32; 76; 105; 110; 107; 101; 100; 76; 105; 115; 116; 59; 10; 10; 116; 121; 112; 101; 100; 101; 102; 32; 115; 116; 114; 117; 99; 116; 32; 76; 105; 110; 107; 101; 100; 76; 105; 115; 116; 32; 123; 10; 32; 32; 32; 32; 105; 110; 116; 32; 118; 97; 108; 117; 101; 59; 10; 32; 32; 32; 32; 76; 105; 110; 107; 101; 100; 76; 105; 115; 116; 42; 32; 110; 101; 120; 116; 59; 10; 125; 59; 10; 10; 76; 105; 110; 107; 101; 100; 76; 105; 115; 116; 42; 32; 110; 101; 119; 95; 108; 105; 110; 107; 101; 100; 108; 105; 115; 116; 40; 105; 110; 116; 32; 118; 97; 108; 117; 101; 41; 32; 123; 10; 32; 32; 32; 32; 76; 105; 110; 107; 101; 100; 76; 105; 115; 116; 42; 32; 108; 105; 115; 116; 32; 61; 32; 109; 97; 108; 108; 111; 99; 40; 115; 105; 122; 101; 111; 102; 40; 76; 105; 110; 107; 101; 100; 76; 105; 115; 116; 41; 41; 59; 10; 32; 32; 32; 32; 108; 105; 115; 116; 45; 62; 118; 97; 108; 117; 101; 32; 61; 32; 118; 97; 108; 117; 101; 59; 10; 32; 32; 32; 32; 108; 105; 115; 116; 45; 62; 110; 101; 120; 116; 32; 61; 32; 40; 118; 111; 105; 100; 42; 41; 48; 59; 10; 32; 32; 32; 32; 114; 101; 116; 117; 114; 110; 32; 108; 105; 115; 116; 59; 10; 125; 10; 10; 105; 110; 116; 32; 108; 105; 110; 107; 101; 100; 108; 105; 115; 116; 95; 97; 116; 40; 76; 105; 110; 107; 101; 100; 76; 105; 115; 116; 42; 32; 108; 105; 115; 116; 44; 32; 105; 110; 116; 32; 110; 41; 32; 123; 10; 32; 32; 32; 32; 105; 102; 32; 40; 33; 108; 105; 115; 116; 41; 32; 123; 10; 32; 32; 32; 32; 32; 32; 32; 32; 114; 101; 116; 117; 114; 110; 32; 45; 49; 59; 10; 32; 32; 32; 32; 125; 10; 32; 32; 32; 32; 105; 102; 32; 40; 110; 32; 61; 61; 32; 48; 41; 32; 123; 10; 32; 32; 32; 32; 32; 32; 32; 32; 114; 101; 116; 117; 114; 110; 32; 108; 105; 115; 116; 45; 62; 118; 97; 108; 117; 101; 59; 10; 32; 32; 32; 32; 125; 10; 32; 32; 32; 32; 114; 101; 116; 117; 114; 110; 32; 108; 105; 110; 107; 101; 100; 108; 105; 115; 116; 95; 97; 116; 40; 108; 105; 115; 116; 45; 62; 110; 101; 120; 116; 44; 32; 110; 32; 45; 32; 49; 41; 59; 10; 125; 10; 10; 105; 110; 116; 32; 108; 105; 110; 107; 101; 100; 108; 105; 115; 116; 95; 108; 101; 110; 103; 116; 104; 40; 76; 105; 110; 107; 101; 100; 76; 105; 115; 116; 42; 32; 108; 105; 115; 116; 41; 32; 123; 10; 32; 32; 32; 32; 105; 102; 32; 40; 33; 108; 105; 115; 116; 41; 32; 123; 10; 32; 32; 32; 32; 32; 32; 32; 32; 114; 101; 116; 117; 114; 110; 32; 48; 59; 10; 32; 32; 32; 32; 125; 10; 32; 32; 32; 32; 114; 101; 116; 117; 114; 110; 32; 108; 105; 110; 107; 101; 100; 108; 105; 115; 116; 95; 108; 101; 110; 103; 116; 104; 40; 108; 105; 115; 116; 45; 62; 110; 101; 120; 116; 41; 32; 43; 32; 49; 59; 10; 125; 10; 10; 105; 110; 116; 32; 100; 101; 108; 101; 116; 101; 95; 108; 105; 110; 107; 101; 100; 108; 105; 115; 116; 40; 76; 105; 110; 107; 101; 100; 76; 105; 115; 116; 42; 32; 108; 105; 115; 116; 41; 32; 123; 10; 32; 32; 32; 32; 105; 102; 32; 40; 108; 105; 115; 116; 45; 62; 110; 101; 120; 116; 41; 32; 123; 10; 32; 32; 32; 32; 32; 32; 32; 32; 100; 101; 108; 101; 116; 101; 95; 108; 105; 110; 107; 101; 100; 108; 105; 115; 116; 40; 108; 105; 115; 116; 45; 62; 110; 101; 120; 116; 41; 59; 10; 32; 32; 32; 32; 125; 10; 32; 32; 32; 32; 102; 114; 101; 101; 40; 108; 105; 115; 116; 41; 59; 10; 32; 32; 32; 32; 114; 101; 116; 117; 114; 110; 32; 48; 59; 10; 125; 10; 10; 105; 110; 116; 32; 109; 97; 105; 110; 40; 118; 111; 105; 100; 41; 32; 123; 10; 32; 32; 32; 32; 76; 105; 110; 107; 101; 100; 76; 105; 115; 116; 42; 32; 108; 105; 115; 116; 32; 61; 32; 110; 101; 119; 95; 108; 105; 110; 107; 101; 100; 108; 105; 115; 116; 40; 50; 41; 59; 10; 32; 32; 32; 32; 76; 105; 110; 107; 101; 100; 76; 105; 115; 116; 42; 32; 110; 111; 100; 101; 32; 61; 32; 108; 105; 115; 116; 59; 10; 10; 32; 32; 32; 32; 110; 111; 100; 101; 45; 62; 110; 101; 120; 116; 32; 61; 32; 110; 101; 119; 95; 108; 105; 110; 107; 101; 100; 108; 105; 115; 116; 40; 51; 41; 59; 10; 32; 32; 32; 32; 110; 111; 100; 101; 32; 61; 32; 110; 111; 100; 101; 45; 62; 110; 101; 120; 116; 59; 10; 10; 32; 32; 32; 32; 110; 111; 100; 101; 45; 62; 110; 101; 120; 116; 32; 61; 32; 110; 101; 119; 95; 108; 105; 110; 107; 101; 100; 108; 105; 115; 116; 40; 53; 41; 59; 10; 32; 32; 32; 32; 110; 111; 100; 101; 32; 61; 32; 110; 111; 100; 101; 45; 62; 110; 101; 120; 116; 59; 10; 10; 32; 32; 32; 32; 110; 111; 100; 101; 45; 62; 110; 101; 120; 116; 32; 61; 32; 110; 101; 119; 95; 108; 105; 110; 107; 101; 100; 108; 105; 115; 116; 40; 56; 41; 59; 10; 32; 32; 32; 32; 110; 111; 100; 101; 32; 61; 32; 110; 111; 100; 101; 45; 62; 110; 101; 120; 116; 59; 10; 10; 32; 32; 32; 32; 112; 117; 116; 95; 105; 110; 116; 40; 108; 105; 110; 107; 101; 100; 108; 105; 115; 116; 95; 108; 101; 110; 103; 116; 104; 40; 108; 105; 115; 116; 41; 41; 59; 10; 32; 32; 32; 32; 112; 117; 116; 95; 105; 110; 116; 40; 108; 105; 110; 107; 101; 100; 108; 105; 115; 116; 95; 97; 116; 40; 108; 105; 115; 116; 44; 32; 48; 41; 41; 59; 10; 32; 32; 32; 32; 112; 117; 116; 95; 105; 110; 116; 40; 108; 105; 110; 107; 101; 100; 108; 105; 115; 116; 95; 97; 116; 40; 108; 105; 115; 116; 44; 32; 49; 41; 41; 59; 10; 32; 32; 32; 32; 112; 117; 116; 95; 105; 110; 116; 40; 108; 105; 110; 107; 101; 100; 108; 105; 115; 116; 95; 97; 116; 40; 108; 105; 115; 116; 44; 32; 50; 41; 41; 59; 10; 32; 32; 32; 32; 112; 117; 116; 95; 105; 110; 116; 40; 108; 105; 110; 107; 101; 100; 108; 105; 115; 116; 95; 97; 116; 40; 108; 105; 115; 116; 44; 32; 51; 41; 41; 59; 10; 32; 32; 32; 32; 112; 117; 116; 95; 105; 110; 116; 40; 108; 105; 110; 107; 101; 100; 108; 105; 115; 116; 95; 97; 116; 40; 108; 105; 115; 116; 44; 32; 52; 41; 41; 59; 10; 32; 32; 32; 32; 112; 117; 116; 95; 105; 110; 116; 40; 108; 105; 110; 107; 101; 100; 108; 105; 115; 116; 95; 97; 116; 40; 108; 105; 115; 116; 44; 32; 53; 41; 41; 59; 10; 10; 32; 32; 32; 32; 100; 101; 108; 101; 116; 101; 95; 108; 105; 110; 107; 101; 100; 108; 105; 115; 116; 40; 108; 105; 115; 116; 41; 59; 10; 10; 32; 32; 32; 32; 114; 101; 116; 117; 114; 110; 32; 48; 59; 10; 125; 10].
Example fixture_x_linkedlist_ok : output_of (run_source 100000 src_x_linkedlist) = Some
  [52; 10; 50; 10; 51; 10; 53; 10; 56; 10; 45; 49; 10; 45; 49; 10].
Proof. vm_compute. reflexivity. Qed.
(** test-fixtures/x-mergesort *)
Definition src_x_mergesort : list Z :=
  [118; 111; 105; 100; 42; 32; 109; 97; 108; 108; 111; 99; 40; 117; 110; 115; 105; 103; 110; 101; 100; 32; 105; 110; 116; 32; 115; 105; 122; 101; 41; 59; 10; 118; 111; 105; 100; 32; 102; 114; 101; 101; 40; 118; 111; 105; 100; 42; 32; 112; 116; 114; 41; 59; 10; 10; 118; 111; 105; 100; 32; 112; 117; 116; 95; 105; 110; 116; 40; 105; 110; 116; 32; 120; 41; 59; 10; 10; 118; 111; 105; 100; 32; 109; 101; 114; 103; 101; 95; 115; 111; 114; 116; 40; 105; 110; 116; 42; 32; 97; 114; 114; 97; 121; 44; 32; 105; 110; 116; 32; 108; 101; 102; 116; 44; 32; 105; 110; 116; 32; 114; 105; 103; 104; 116; 41; 32; 123; 10; 32; 32; 32; 32; 105; 102; 32; 40; 108; 101; 102; 116; 32; 62; 61; 32; 114; 105; 103; 104; 116; 41; 32; 123; 10; 32; 32; 32; 32; 32; 32; 32; 32; 114; 101; 116; 117; 114; 110; 59; 10; 32; 32; 32; 32; 125; 10; 10; 32; 32; 32; 32; 105; 110; 116; 32; 109; 105; 100; 32; 61; 32; 40; 108; 101; 102; 116; 32; 43; 32; 114; 105; 103; 104; 116; 41; 32; 47; 32; 50; 59; 10; 32; 32; 32; 32; 109; 101; 114; 103; 101; 95; 115; 111; 114; 116; 40; 97; 114; 114; 97; 121; 44; 32; 108; 101; 102; 116; 44; 32; 109; 105; 100; 41; 59; 10; 32; 32; 32; 32; 109; 101; 114; 103; 101; 95; 115; 111; 114; 116; 40; 97; 114; 114; 97; 121; 44; 32; 109; 105; 100; 32; 43; 32; 49; 44; 32; 114; 105; 103; 104; 116; 41; 59; 10; 10; 32; 32; 32; 32; 105; 110; 116; 32; 105; 32; 61; 32; 108; 101; 102; 116; 59; 10; 32; 32; 32; 32; 105; 110; 116; 32; 106; 32; 61; 32; 109; 105; 100; 32; 43; 32; 49; 59; 10; 32; 32; 32; 32; 105; 110; 116; 32; 107; 32; 61; 32; 48; 59; 10; 32; 32; 32; 32; 105; 110; 116; 42; 32; 116; 101; 109; 112; 32; 61; 32; 109; 97; 108; 108; 111; 99; 40; 115; 105; 122; 101; 111; 102; 40; 105; 110; 116; 41; 32; 42; 32; 40; 114; 105; 103; 104; 116; 32; 45; 32; 108; 101; 102; 116; 32; 43; 32; 49; 41; 41; 59; 10; 32; 32; 32; 32; 119; 104; 105; 108; 101; 32; 40; 105; 32; 60; 61; 32; 109; 105; 100; 32; 38; 38; 32; 106; 32; 60; 61; 32; 114; 105; 103; 104; 116; 41; 32; 123; 10; 32; 32; 32; 32; 32; 32; 32; 32; 105; 102; 32; 40; 97; 114; 114; 97; 121; 91; 105; 93; 32; 60; 32; 97; 114; 114; 97; 121; 91; 106; 93; 41; 32; 123; 10; 32; 32; 32; 32; 32; 32; 32; 32; 32; 32; 32; 32; 116; 101; 109; 112; 91; 107; 93; 32; 61; 32; 97; 114; 114; 97; 121; 91; 105; 93; 59; 10; 32; 32; 32; 32; 32; 32; 32; 32; 32; 32; 32; 32; 43; 43; 105; 59; 10; 32; 32; 32; 32; 32; 32; 32; 32; 125; 32; 101; 108; 115; 101; 32; 123; 10; 32; 32; 32; 32; 32; 32; 32; 32; 32; 32; 32; 32; 116; 101; 109; 112; 91; 107; 93; 32; 61; 32; 97; 114; 114; 97; 121; 91; 106; 93; 59; 10; 32; 32; 32; 32; 32; 32; 32; 32; 32; 32; 32; 32; 43; 43; 106; 59; 10; 32; 32; 32; 32; 32; 32; 32; 32; 125; 10; 32; 32; 32; 32; 32; 32; 32; 32; 43; 43; 107; 59; 10; 32; 32; 32; 32; 125; 10; 10; 32; 32; 32; 32; 119; 104; 105; 108; 101; 32; 40; 105; 32; 60; 61; 32; 109; 105; 100; 41; 32; 123; 10; 32; 32; 32; 32; 32; 32; 32; 32; 116; 101; 109; 112; 91; 107; 93; 32; 61; 32; 97; 114; 114; 97; 121; 91; 105; 93; 59; 10; 32; 32; 32; 32; 32; 32; 32; 32; 43; 43; 105; 59; 10; 32; 32; 32; 32; 32; 32; 32; 32; 43; 43; 107; 59; 10; 32; 32; 32; 32; 125; 10; 10; 32; 32; 32; 32; 119; 104; 105; 108; 101; 32; 40; 106; 32; 60; 61; 32; 114; 105; 103; 104; 116; 41; 32; 123; 10; 32; 32; 32; 32; 32; 32; 32; 32; 116; 101; 109; 112; 91; 107; 93; 32; 61; 32; 97; 114; 114; 97; 121; 91; 106; 93; 59; 10; 32; 32; 32; 32; 32; 32; 32; 32; 43; 43; 106; 59; 10; 32; 32; 32; 32; 32; 32; 32; 32; 43; 43; 107; 59; 10; 32; 32; 32; 32; 125; 10; 10; 32; 32; 32; 32; 105; 32; 61; 32; 108; 101; 102; 116; 59; 10; 32; 32; 32; 32; 107; 32; 61; 32; 48; 59; 10; 32; 32; 32; 32; 119; 104; 105; 108; 101; 32; 40; 105; 32; 60; 61; 32; 114; 105; 103; 104; 116; 41; 32; 123; 10; 32; 32; 32; 32; 32; 32; 32; 32; 97; 114; 114; 97; 121; 91; 105; 93; 32; 61; 32; 116; 101; 109; 112; 91; 107; 93; 59; 10; 32; 32; 32; 32; 32; 32; 32; 32; 43; 43; 105; 59; 10; 32; 32; 32; 32; 32; 32; 32; 32; 43; 43; 107; 59; 10; 32; 32; 32; 32; 125; 10; 10; 32; 32; 32; 32; 102; 114; 101; 101; 40; 116; 101; 109; 112; 41; 59; 10; 125; 10; 10; 105; 110; 116; 32; 109; 97; 105; 110; 40; 118; 111; 105; 100; 41; 32; 123; 10; 32; 32; 32; 32; 105; 110; 116; 32; 97; 114; 114; 97; 121; 91; 49; 51; 93; 32; 61; 32; 123; 49; 51; 44; 32; 51; 44; 32; 57; 44; 32; 56; 44; 32; 53; 44; 32; 49; 44; 32; 52; 44; 32; 49; 49; 44; 32; 50; 44; 32; 55; 44; 32; 50; 44; 32; 52; 44; 32; 54; 125; 59; 10; 32; 32; 32; 32; 109; 101; 114; 103; 101; 95; 115; 111; 114; 116; 40; 97; 114; 114; 97; 121; 44; 32; 48; 44; 32; 49; 50; 41; 59; 10; 10; 32; 32; 32; 32; 102; 111; 114; 32; 40; 105; 110; 116; 32; 105; 32; 61; 32; 48; 59; 32; 105; 32; 60; 32; 49; 51; 59; 32; 43; 43; 105; 41; 32; 123; 10; 32; 32; 32; 32; 32; 32; 32; 32; 112; 117; 116; 95; 105; 110; 116; 40; 97; 114; 114; 97; 121; 91; 105; 93; 41; 59; 10; 32; 32; 32; 32; 125; 10; 10; 32; 32; 32; 32; 114; 101; 116; 117; 114; 110; 32; 48; 59; 10; 125; 10].
Example fixture_x_mergesort_ok : output_of (run_source 100000 src_x_mergesort) = Some
  [49; 10; 50; 10; 50; 10; 51; 10; 52; 10; 52; 10; 53; 10; 54; 10; 55; 10; 56; 10; 57; 10; 49; 49; 10; 49; 51; 10].
Proof. vm_compute. reflexivity. Qed.
(** test-fixtures/x-quicksort *)
Definition src_x_quicksort : list Z :=
  [118; 111; 105; 100; 32; 112; 117; 116; 95; 105; 110; 116; 40; 105; 110; 116; 32; 120; 41; 59; 10; 10; 118; 111; 105; 100; 32; 113; 117; 105; 99; 107; 95; 115; 111; 114; 116; 40; 105; 110; 116; 42; 32; 97; 114; 114; 97; 121; 44; 32; 105; 110; 116; 32; 98; 101; 103; 105; 110; 44; 32; 105; 110; 116; 32; 101; 110; 100; 41; 32; 123; 10; 32; 32; 32; 32; 105; 102; 32; 40; 98; 101; 103; 105; 110; 32; 62; 61; 32; 101; 110; 100; 41; 32; 123; 10; 32; 32; 32; 32; 32; 32; 32; 32; 114; 101; 116; 117; 114; 110; 59; 10; 32; 32; 32; 32; 125; 10; 10; 32; 32; 32; 32; 105; 110; 116; 32; 105; 32; 61; 32; 98; 101; 103; 105; 110; 59; 10; 32; 32; 32; 32; 105; 110; 116; 32; 106; 32; 61; 32; 101; 110; 100; 59; 10; 32; 32; 32; 32; 105; 110; 116; 32; 112; 105; 118; 111; 116; 32; 61; 32; 97; 114; 114; 97; 121; 91; 98; 101; 103; 105; 110; 93; 59; 10; 10; 32; 32; 32; 32; 119; 104; 105; 108; 101; 32; 40; 105; 32; 60; 32; 106; 41; 32; 123; 10; 32; 32; 32; 32; 32; 32; 32; 32; 119; 104; 105; 108; 101; 32; 40; 105; 32; 60; 32; 106; 32; 38; 38; 32; 97; 114; 114; 97; 121; 91; 106; 93; 32; 62; 32; 112; 105; 118; 111; 116; 41; 32; 123; 10; 32; 32; 32; 32; 32; 32; 32; 32; 32; 32; 32; 32; 106; 45; 45; 59; 10; 32; 32; 32; 32; 32; 32; 32; 32; 125; 10; 32; 32; 32; 32; 32; 32; 32; 32; 97; 114; 114; 97; 121; 91; 105; 93; 32; 61; 32; 97; 114; 114; 97; 121; 91; 106; 93; 59; 10; 32; 32; 32; 32; 32; 32; 32; 32; 119; 104; 105; 108; 101; 32; 40; 105; 32; 60; 32; 106; 32; 38; 38; 32; 97; 114; 114; 97; 121; 91; 105; 93; 32; 60; 61; 32; 112; 105; 118; 111; 116; 41; 32; 123; 10; 32; 32; 32; 32; 32; 32; 32; 32; 32; 32; 32; 32; 105; 43; 43; 59; 10; 32; 32; 32; 32; 32; 32; 32; 32; 125; 10; 32; 32; 32; 32; 32; 32; 32; 32; 97; 114; 114; 97; 121; 91; 106; 93; 32; 61; 32; 97; 114; 114; 97; 121; 91; 105; 93; 59; 10; 32; 32; 32; 32; 125; 10; 10; 32; 32; 32; 32; 97; 114; 114; 97; 121; 91; 105; 93; 32; 61; 32; 112; 105; 118; 111; 116; 59; 10; 10; 32; 32; 32; 32; 113; 117; 105; 99; 107; 95; 115; 111; 114; 116; 40; 97; 114; 114; 97; 121; 44; 32; 98; 101; 103; 105; 110; 44; 32; 105; 32; 45; 32; 49; 41; 59; 10; 32; 32; 32; 32; 113; 117; 105; 99; 107; 95; 115; 111; 114; 116; 40; 97; 114; 114; 97; 121; 44; 32; 106; 32; 43; 32; 49; 44; 32; 101; 110; 100; 41; 59; 10; 125; 10; 10; 105; 110; 116; 32; 109; 97; 105; 110; 40; 118; 111; 105; 100; 41; 32; 123; 10; 32; 32; 32; 32; 105; 110; 116; 32; 97; 114; 114; 97; 121; 91; 49; 51; 93; 32; 61; 32; 123; 49; 51; 44; 32; 51; 44; 32; 57; 44; 32; 56; 44; 32; 53; 44; 32; 49; 44; 32; 52; 44; 32; 49; 49; 44; 32; 50; 44; 32; 55; 44; 32; 50; 44; 32; 52; 44; 32; 54; 125; 59; 10; 32; 32; 32; 32; 113; 117; 105; 99; 107; 95; 115; 111; 114; 116; 40; 97; 114; 114; 97; 121; 44; 32; 48; 44; 32; 49; 50; 41; 59; 10; 10; 32; 32; 32; 32; 102; 111; 114; 32; 40; 105; 110; 116; 32; 105; 32; 61; 32; 48; 59; 32; 105; 32; 60; 32; 49; 51; 59; 32; 43; 43; 105; 41; 32; 123; 10; 32; 32; 32; 32; 32; 32; 32; 32; 112; 117; 116; 95; 105; 110; 116; 40; 97; 114; 114; 97; 121; 91; 105; 93; 41; 59; 10; 32; 32; 32; 32; 125; 10; 10; 32; 32; 32; 32; 114; 101; 116; 117; 114; 110; 32; 48; 59; 10; 125; 10].
Example fixture_x_quicksort_ok : output_of (run_source 100000 src_x_quicksort) = Some
  [49; 10; 50; 10; 50; 10; 51; 10; 52; 10; 52; 10; 53; 10; 54; 10; 55; 10; 56; 10; 57; 10; 49; 49; 10; 49; 51; 10].
Proof. vm_compute. reflexivity. Qed.
