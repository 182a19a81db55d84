(** Which scalar of an initialiser belongs at which offset of the object *)
From Verif Require Import Base SrtModel TypeSpec CSem.
Open Scope Z_scope.

(** members follow each other inside the object, as do those of their types *)
Inductive laid_out (T : tagtab) : dtype -> Prop :=
| lo_scalar d : kind d <> None -> laid_out T d
| lo_array e n : 0 <= n -> laid_out T e -> laid_out T (DTYPE_ARRAY e n)
| lo_struct d ms : struct_members T d = Some ms -> members_out T 0 ms (sizeof d) -> laid_out T d
with members_out (T : tagtab) : Z -> list (name * dtype * Z) -> Z -> Prop :=
| mo_nil a b : a <= b -> members_out T a [] b
| mo_cons a b n t off ms : a <= off -> laid_out T t -> members_out T (off + sizeof t) ms b -> members_out T a ((n, t, off) :: ms) b.

Definition string_init (cs : list srt) : option (list Z) :=
  match cs with [Srt SRT_SLITERAL_EXPR _ (SPStr l) _] => Some l | _ => None end.
(** [scalar_at T s d off t e]: in the initialiser [s] of an object of type [d], [e] is for the scalar of type [t] at offset [off] *)
Inductive scalar_at (T : tagtab) : srt -> dtype -> Z -> dtype -> srt -> Prop :=
| sa_scalar o p e d : kind d <> None -> scalar_at T (Srt SRT_INIT o p [e]) d 0 d e
| sa_element o p cs e n i c off t x : string_init cs = None -> nth_error cs i = Some c -> scalar_at T c e off t x ->
    scalar_at T (Srt SRT_INIT o p cs) (DTYPE_ARRAY e n) (Z.of_nat i * sizeof e + off) t x
| sa_member o p cs d ms i c m t' base off t x : struct_members T d = Some ms -> nth_error cs i = Some c -> nth_error ms i = Some (m, t', base) ->
    scalar_at T c t' off t x -> scalar_at T (Srt SRT_INIT o p cs) d (base + off) t x.
(** the same for the characters of string literals *)
Inductive char_at (T : tagtab) : srt -> dtype -> Z -> Z -> Prop :=
| ca_string o p cs e n l i b : string_init cs = Some l -> nth_error l i = Some b -> char_at T (Srt SRT_INIT o p cs) (DTYPE_ARRAY e n) (Z.of_nat i) b
| ca_element o p cs e n i c off b : string_init cs = None -> nth_error cs i = Some c -> char_at T c e off b ->
    char_at T (Srt SRT_INIT o p cs) (DTYPE_ARRAY e n) (Z.of_nat i * sizeof e + off) b
| ca_member o p cs d ms i c m t' base off b : struct_members T d = Some ms -> nth_error cs i = Some c -> nth_error ms i = Some (m, t', base) ->
    char_at T c t' off b -> char_at T (Srt SRT_INIT o p cs) d (base + off) b.
