(** C32, C48: the data of static objects, and whole programs, against the C semantics (CSem, CProgram, ImmcSem, ImmcProgram) *)
From Verif Require Import Base DriverModel AstModel SrtModel ResolverModel ImmcModel ImmcgenModel X64Isa OpSpec TypeSpec CSem CProgram ImmcProgram GenSpec InitSpec LabelSpec ProgSpec DataProofs2 ProgProofs2 SourceProofs FrontModel ProgWitness TestLib TestFixtures TestC Machine ExprWitness.
Local Open Scope Z_scope.

(** C32.  The data generated for the initialiser [s] of a static object of type [d] is as many bytes as the object has, and they are
    what initialising the object in C puts into memory; the bytes at the offset of each scalar are its value, and each character of a
    string literal is in its place ([scalar_at], [char_at]: InitSpec). [take_data] reads the data directives (ImmcProgram).
    Missing: what [regular_static] leaves out (ProgSpec): the generator fails on constant expressions other than literals and casts, as shown below. *)
Theorem C32_static_data_partial : forall fuel s d st cs st',
  gen fuel (Some d) s st = Ok (cs, st') -> length (g_syms st) = 1%nat -> regular_static (g_tags st) s d = true ->
  exists l, (forall rest, take_data (cs ++ rest) = l ++ take_data rest) /\ Z.of_nat (length l) = sizeof d /\
    forall call P Sc val a W W',
      (forall n a, p_label P n = Some a -> 0 <= a < 2 ^ 64) -> (forall i, p_string P i = p_label P (create_sliteral_label i)) ->
      s_tags Sc = g_tags st -> laid_out (s_tags Sc) d ->
      (forall off t e, scalar_at (s_tags Sc) s d off t e -> forall W v W', eval call P Sc e W = Ok (v, W') -> v = val e /\ w_mem W' = w_mem W) ->
      0 <= a -> (exists M, w_mem W = poke_list M a (repeat 0 (length l))) -> initialise call P Sc s d a W = Ok W' ->
      (forall b, a <= b < a + sizeof d -> peek (w_mem W') b = nth (Z.to_nat (b - a)) l 0) /\
      (forall off t e, scalar_at (s_tags Sc) s d off t e -> 0 <= off /\ off + sizeof t <= sizeof d /\
         exists u z, kind t = Some (u, z) /\ forall i, 0 <= i < sizeof t -> nth (Z.to_nat (off + i)) l 0 = byte (low z (val e)) i) /\
      (forall off c, char_at (s_tags Sc) s d off c -> 0 <= off < sizeof d /\ nth (Z.to_nat off) l 0 = c mod 256).
Proof. exact static_contents. Qed.
Print Assumptions C32_static_data_partial.
Definition C32_source := bytes "struct s { char c; int a[2]; long long b; char t[3]; }; struct s v = {'x', {1, 2}, 4, {'a', 'b', 0}}; int main(void){ return 0; }".
Definition C32_world := mkworld (mkmem (FMapPositive.PositiveMap.empty _) [(DATA_BASE, HEAP_BASE)] 0) 0 [].
Example C32_case : exists s u o i cs st' W', front C32_source = Ok s /\ translation_unit s = Ok u /\ u_statics u = [o] /\ o_init o = Some i /\ length (g_syms (generator (o_scopes o))) = 1%nat
  /\ gen 50 (Some (o_type o)) i (generator (o_scopes o)) = Ok (cs, st') /\ regular_static (s_tags (o_scopes o)) i (o_type o) = true
  /\ take_data cs = [120; 0; 0; 0; 1; 0; 0; 0; 2; 0; 0; 0; 0; 0; 0; 0; 4; 0; 0; 0; 0; 0; 0; 0; 97; 98; 0; 0; 0; 0; 0; 0]
  /\ initialise no_call (places_at [] u 0) (o_scopes o) i (o_type o) DATA_BASE C32_world = Ok W' /\ peek (w_mem W') (DATA_BASE + 16) = 4.
Proof. do 7 eexists. repeat (split; [vm_compute; reflexivity |]). vm_compute. reflexivity. Qed.

(** C32, for all constant initialisers: there is no data at all for [int x = -1;] *)
Theorem C32_static_data_refuted : ~ static_data_emitted.
Proof. exact static_data_refuted. Qed.
Print Assumptions C32_static_data_refuted.

(** C48, first half: source to intermediate code.  If the program [s] runs in C with exit status and output [r], so does its intermediate
    code, given enough steps [k] per call; [fuel] bounds the depth of calls (and of statements in C). All calls, arguments, static objects
    and addresses are part of it. [exts] and [ext] are the external functions. Missing: what [regular_program] leaves out (ProgSpec), and the second half. *)
Theorem C48_intermediate_code_partial : forall src s C exts ext fuel r,
  front src = Ok s -> immcgen s = Ok C -> regular_program s = true ->
  run_program exts ext fuel s = Ok r -> exists k0, forall k, (k0 <= k)%nat -> irun_program exts ext C k fuel = Ok r.
Proof. exact source_does. Qed.
Print Assumptions C48_intermediate_code_partial.
Example C48_case : exists s C r, front src_x_quicksort = Ok s /\ immcgen s = Ok C
  /\ regular_program s = true /\ run_program testlib_names c_testlib 1000 s = Ok r /\ irun_program testlib_names c_testlib C (Z.to_nat 100000) 1000 = Ok r.
Proof.
  eexists. eexists. eexists. split; [vm_compute; reflexivity |]. split; [vm_compute; reflexivity |]. split; [vm_compute; reflexivity |]. split; vm_compute; reflexivity.
Qed.
(** the end-to-end tests of the repository, except the one with a case constant wider than the controlling expression *)
Example C48_fixtures : forallb (fun src => match front src with Ok s => regular_program s | _ => false end)
  [src_arithmetic; src_array; src_assignment; src_bitwise; src_char; src_comparison; src_compstmt; src_condition; src_enum; src_exprstmt; src_for; src_functioncall; src_functiondef; src_functionptr; src_globalvar;
   src_ifelse; src_incdec; src_initializer; src_int; src_logical; src_pointer; src_stringliteral; src_struct; src_typedef; src_void; src_while; src_x_linkedlist; src_x_mergesort; src_x_quicksort] = true.
Proof. vm_compute. reflexivity. Qed.

(** C48 in full, for the whole compiler: a program that means something is compiled, assembled, and does not end otherwise than C says. It is false:
    see [postfix_compared], [deep_division] and [unsigned_shift] (ProgWitness). *)
Theorem C48_faithful_refuted : ~ forall src, compiled_faithfully src.
Proof. exact not_faithful. Qed.
Print Assumptions C48_faithful_refuted.
Theorem C48_division_refuted : miscompiled deep_division 40 42.
Proof. exact division_miscompiled. Qed.
Print Assumptions C48_division_refuted.
Theorem C48_shift_refuted : miscompiled unsigned_shift 1 0.
Proof. exact shift_miscompiled. Qed.
Print Assumptions C48_shift_refuted.
