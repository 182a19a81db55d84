(** Statements and initialisers: the results in terms of whole pieces of code *)
From Verif Require Import Base SrtModel ImmcModel ImmcgenModel X64Isa X64Decode OpSpec TypeSpec TypeProofs CSem CProgram ImmcSem GenSpec ElabProofs GenProofs IsaProofs IsaMemProofs LabelSpec ExprProofs ExprProofs2 ExprProofs7 ExprProofs8 StmtProofs StmtProofs2 StmtProofs3 FunProofs InitSpec InitProofs.
Open Scope Z_scope.

Theorem statement_code : forall call P params C fuel s st cs st' pre post Sc q n fl W',
  NoDup (labels C) ->
  (forall n a, p_label P n = Some a -> 0 <= a < 2 ^ 64) -> (forall i, p_string P i = p_label P (create_sliteral_label i)) ->
  gen fuel None s st = Ok (cs, st') -> regular_stmt Sc s = true -> C = pre ++ cs ++ post ->
  s_syms Sc = g_syms st -> s_tags Sc = g_tags st -> (2 <= length (g_syms st))%nat -> 0 <= g_label st ->
  exec call P n None s Sc (i_world q) = Ok (fl, W') ->
  exists q', i_world q' = W' /\ i_args q' = i_args q /\ i_ret q' = (match fl with Return (Some v) => Some v | _ => i_ret q end) /\
    let arrives k := reaches call (p_label P) (p_frame P) params C (length pre) q k q' in
    match fl with
    | Normal => arrives (length pre + length cs)%nat
    | Break => forall k, label_at (create_label_name (g_brk st)) C = Some k -> arrives k
    | Continue => forall k, label_at (create_label_name (g_cont st)) C = Some k -> arrives k
    | Return _ => forall k, label_at (create_label_name (g_ret st)) C = Some k -> arrives k
    | Seeking => False
    end.
Proof.
  intros call P params C fuel s st cs st' pre post Sc q n fl W' NL P1 P2 G R Ec E1 E2 D1 D2 X.
  destruct (exec_ok call P params C NL (conj P1 P2) n) as (T & _ & _).
  assert (A : code_at C (length pre) cs) by (exists pre, post; auto).
  exact (T None s fuel Sc st cs st' (i_world q) fl W' q (length pre) G R (conj E1 E2) (conj D1 D2) (none_ok _ _) X A eq_refl).
Qed.

Theorem initialiser_code : forall call P params C fuel s d k st cs st' pre post Sc q W',
  NoDup (labels C) ->
  (forall n a, p_label P n = Some a -> 0 <= a < 2 ^ 64) -> (forall i, p_string P i = p_label P (create_sliteral_label i)) ->
  gen fuel (Some d) s st = Ok (cs, st') -> regular_init (s_tags Sc) s d = Some k -> C = pre ++ cs ++ post ->
  s_syms Sc = g_syms st -> s_tags Sc = g_tags st -> (2 <= length (g_syms st))%nat ->
  initialise call P Sc s d (low S8 (p_frame P - g_off st)) (i_world q) = Ok W' ->
  exists q', reaches call (p_label P) (p_frame P) params C (length pre) q (length pre + length cs) q' /\ i_world q' = W' /\ i_args q' = i_args q /\ i_ret q' = i_ret q.
Proof.
  intros call P params C fuel s d k st cs st' pre post Sc q W' NL P1 P2 G R Ec E1 E2 D1 X.
  assert (A : code_at C (length pre) cs) by (exists pre, post; auto).
  assert (Gl : is_global st = false). { unfold is_global. apply Nat.eqb_neq. lia. }
  destruct (init_ok call P params C NL (conj P1 P2) fuel s d k (low S8 (p_frame P - g_off st)) st cs st' Sc (i_world q) W' q (length pre) G R (conj E1 E2) Gl X) as (q' & Q); [symmetry; apply low_low | exact A | reflexivity |].
  exists q'. destruct Q as (Q1 & Q2 & K). destruct K as (K1 & K2 & _). auto.
Qed.
Theorem initialiser_stores : forall call P params C fuel s d k st cs st' pre post Sc q W' val,
  NoDup (labels C) ->
  (forall n a, p_label P n = Some a -> 0 <= a < 2 ^ 64) -> (forall i, p_string P i = p_label P (create_sliteral_label i)) ->
  gen fuel (Some d) s st = Ok (cs, st') -> regular_init (s_tags Sc) s d = Some k -> C = pre ++ cs ++ post ->
  s_syms Sc = g_syms st -> s_tags Sc = g_tags st -> (2 <= length (g_syms st))%nat ->
  laid_out (s_tags Sc) d ->
  (forall off t e, scalar_at (s_tags Sc) s d off t e -> forall W v W', eval call P Sc e W = Ok (v, W') -> v = val e /\ w_mem W' = w_mem W) ->
  let a := low S8 (p_frame P - g_off st) in
  initialise call P Sc s d a (i_world q) = Ok W' ->
  exists q', reaches call (p_label P) (p_frame P) params C (length pre) q (length pre + length cs) q' /\
    let M := w_mem (i_world q) in let M' := w_mem (i_world q') in
    (forall b, 0 <= b -> ~ (a <= b < a + sizeof d) -> peek M' b = peek M b) /\
    (forall off t e, scalar_at (s_tags Sc) s d off t e -> 0 <= off /\ off + sizeof t <= sizeof d /\ exists u z, kind t = Some (u, z) /\ holds M' (a + off) (size_bytes z) (low z (val e))) /\
    (forall off c, char_at (s_tags Sc) s d off c -> 0 <= off < sizeof d /\ peek M' (a + off) = c mod 256).
Proof.
  intros call P params C fuel s d k st cs st' pre post Sc q W' val NL P1 P2 G R Ec E1 E2 D1 L St a X.
  destruct (initialiser_code call P params C fuel s d k st cs st' pre post Sc q W' NL P1 P2 G R Ec E1 E2 D1 X) as (q' & Q1 & Q2 & _).
  exists q'. split; [exact Q1 |]. cbv zeta. rewrite Q2. destruct (init_does call P Sc val s d a _ _ X L St) as [D O Ch]. split; [exact D |]. split.
  - intros off t e S. destruct (O _ _ _ S) as (O1 & O2 & _ & O3). auto.
  - intros off c S. destruct (Ch _ _ S) as (O1 & _ & O3). auto.
Qed.
