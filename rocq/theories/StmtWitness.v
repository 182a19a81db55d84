(** Statements of C programs, what they do and what their code does: examples and counterexamples for C31 and C33.
    The last statement of main is the one in question; what is before it are declarations. *)
From Coq Require Import FMapPositive.
From Verif Require Import Base DriverModel AstModel SrtModel ResolverModel ImmcModel ImmcgenModel X64Isa OpSpec TypeSpec CSem CProgram ImmcSem GenSpec LabelSpec ExprWitness.
From Verif Require Machine.
Open Scope Z_scope.

Record scene := mkscene { n_unit : unit_; n_scopes : scopes; n_world : world; n_stmt : srt }.
Definition set_stmt (src : list Z) : res scene :=
  do toks <- lex_source src; do a <- parse_tokens toks; do s <- resolve a; do u <- translation_unit s;
  match u_functions u with
  | (_, f) :: _ =>
      do Sc0 <- function_scopes f;
      match split_last (f_body f) with
      | Some (ds, s) =>
          let m := mkmem (PositiveMap.empty _) [(Machine.STACK_LOW, Machine.STACK_HIGH)] 170 in
          do Sc <- afters ds Sc0;
          do (r, W) <- exec_list no_call (x_places u) 100 None ds Sc0 (mkworld m 0 []);
          Ok (mkscene u Sc W s)
      | None => Err
      end
  | [] => Err
  end.
(** what is in the 4-byte variable [n] *)
Definition variable (P : places) (Sc : scopes) (n : list Z) (W : world) : option Z :=
  match var_address P Sc n with Ok a => load (w_mem W) S4 a | _ => None end.
Definition outcome (x : scene) : res (flow * world) := exec no_call (x_places (n_unit x)) 100 None (n_stmt x) (n_scopes x) (n_world x).
Definition ran (x : scene) : res istate :=
  do (cs, st) <- gen 50 None (n_stmt x) (generator (n_scopes x));
  let P := x_places (n_unit x) in
  match irun no_call (p_label P) (p_frame P) [] 1000 (cs ++ [the_end]) 0 (start_state (n_world x)) with IEnd q => Ok q | _ => Err end.
(** the variable [n] afterwards: in C, and after the code *)
Definition both_ways (src n : list Z) : res (flow * option Z * option Z * bool) :=
  do x <- set_stmt src; do (f, W) <- outcome x; do q <- ran x;
  let P := x_places (n_unit x) in
  Ok (f, variable P (n_scopes x) n W, variable P (n_scopes x) n (i_world q), regular_stmt (n_scopes x) (n_stmt x)).

(** Full statement of C31 *)
Definition code_follows_flow : Prop :=
  forall call P params C fuel s st cs st' pre post Sc q n fl W',
  NoDup (labels C) ->
  (forall n a, p_label P n = Some a -> 0 <= a < 2 ^ 64) -> (forall i, p_string P i = p_label P (create_sliteral_label i)) ->
  gen fuel None s st = Ok (cs, st') -> C = pre ++ cs ++ post ->
  s_syms Sc = g_syms st -> s_tags Sc = g_tags st -> (2 <= length (g_syms st))%nat -> 0 <= g_label st ->
  exec call P n None s Sc (i_world q) = Ok (fl, W') ->
  exists q', i_world q' = W' /\ i_args q' = i_args q /\ i_ret q' = (match fl with Return (Some v) => Some v | _ => i_ret q end) /\
    let arrives k := reaches call (p_label P) (p_frame P) params C (length pre) q k q' in
    match fl with
    | Normal => arrives (length pre + length cs)%nat
    | Break => forall k, label_at (create_label_name (g_brk st)) C = Some k -> arrives k
    | Continue => forall k, label_at (create_label_name (g_cont st)) C = Some k -> arrives k
    | Return _ => forall k, label_at (create_label_name (g_ret st)) C = Some k -> arrives k
    | Seeking => False
    end.

(** the constant of a case label is not converted to the type of the controlling expression (6.8.4.2p5) *)
Definition wide_case := bytes "int main(void){ int x = 1; int y = 0; switch (x) { case 4294967297LL: y = 7; } }".
Lemma code_follows_flow_refuted : ~ code_follows_flow.
Proof.
  intros H. destruct (set_stmt wide_case) as [x | | | |] eqn:E; [| vm_compute in E; discriminate E ..].
  vm_compute in E. injection E as E.
  set (P := x_places (n_unit x)). set (Sc := n_scopes x). set (s := n_stmt x). set (st := gset_label 0 (generator Sc)). set (q := start_state (n_world x)).
  destruct (gen 50 None s st) as [[cs st'] | | | |] eqn:G; [| subst x; vm_compute in G; discriminate G ..].
  destruct (exec no_call P 100 None s Sc (i_world q)) as [[fl W'] | | | |] eqn:V; [| subst x; vm_compute in V; discriminate V ..].
  destruct (H no_call P [] (cs ++ [the_end]) 50%nat s st cs st' [] [the_end] Sc q 100%nat fl W') as (q' & Rw & _ & _ & R); auto.
  - subst x. vm_compute in G. injection G as <- <-. vm_compute. repeat constructor; cbn; intuition discriminate.
  - subst x. intros n a L. unfold P, p_label, x_places, places_at, label in L. cbn in L. destruct (name_eqb n _); discriminate L || (injection L as <-; vm_compute; split; congruence).
  - subst x. vm_compute. auto.
  - vm_compute. discriminate.
  - assert (Fl : fl = Normal). { subst x. vm_compute in V. injection V as <- _. reflexivity. } subst fl.
    destruct (irun no_call (p_label P) (p_frame P) [] 1000 (cs ++ [the_end]) 0 q) as [pc qq | q2 |] eqn:I.
    1, 3: subst x; vm_compute in G; injection G as <- <-; vm_compute in I; discriminate I.
    assert (q' = q2) as ->.
    { eapply ends_once; [exact R | | exact I]. unfold imove. cbn [length Nat.add]. rewrite nth_error_app2, Nat.sub_diag by reflexivity. reflexivity. }
    assert (Y : variable P Sc (bytes "y") (i_world q2) = variable P Sc (bytes "y") W') by (now rewrite Rw). clear R Rw H.
    subst x. vm_compute in G. injection G as <- <-. vm_compute in V. injection V as <-. vm_compute in I. injection I as <-. vm_compute in Y. discriminate Y.
Qed.

(** Full statement of C33 *)
Definition code_initialises : Prop :=
  forall call P params C fuel s d st cs st' pre post Sc q W',
  NoDup (labels C) ->
  (forall n a, p_label P n = Some a -> 0 <= a < 2 ^ 64) -> (forall i, p_string P i = p_label P (create_sliteral_label i)) ->
  gen fuel (Some d) s st = Ok (cs, st') -> C = pre ++ cs ++ post ->
  s_syms Sc = g_syms st -> s_tags Sc = g_tags st -> (2 <= length (g_syms st))%nat ->
  initialise call P Sc s d (low S8 (p_frame P - g_off st)) (i_world q) = Ok W' ->
  exists q', reaches call (p_label P) (p_frame P) params C (length pre) q (length pre + length cs) q' /\ i_world q' = W' /\ i_args q' = i_args q /\ i_ret q' = i_ret q.
(** the initialiser of the last declaration, and the scopes it is in *)
Definition last_init (x : scene) : option (srt * dtype * scopes) :=
  match n_stmt x with
  | Srt SRT_DECL_LIST _ _ [Srt SRT_INIT_DECL _ _ [Srt SRT_IDENT_DECL (Some d) (SPName n) _; i]] =>
      match declare n d (n_scopes x) with Ok Sc => Some (i, d, Sc) | _ => None end
  | _ => None
  end.
(** the padding at the end of an element is not skipped *)
Definition padded_elements := bytes "struct s { int a; char b; }; int main(void){ struct s v[2] = {{1, 2}, {3, 4}}; }".
Lemma code_initialises_refuted : ~ code_initialises.
Proof.
  intros H. destruct (set_stmt padded_elements) as [x | | | |] eqn:E; [| vm_compute in E; discriminate E ..].
  vm_compute in E. injection E as E.
  destruct (last_init x) as [[[s d] Sc] |] eqn:Ei; [| subst x; vm_compute in Ei; discriminate Ei].
  set (P := x_places (n_unit x)). set (st := gset_off 16 (generator Sc)). set (q := start_state (n_world x)).
  destruct (gen 50 (Some d) s st) as [[cs st'] | | | |] eqn:G; [| subst x; vm_compute in Ei; injection Ei as <- <- <-; vm_compute in G; discriminate G ..].
  destruct (initialise no_call P Sc s d (low S8 (p_frame P - g_off st)) (i_world q)) as [W' | | | |] eqn:V; [| subst x; vm_compute in Ei; injection Ei as <- <- <-; vm_compute in V; discriminate V ..].
  destruct (H no_call P [] (cs ++ [the_end]) 50%nat s d st cs st' [] [the_end] Sc q W') as (q' & R & Rw & _); auto.
  - subst x. vm_compute in Ei; injection Ei as <- <- <-. vm_compute in G. injection G as <- <-. vm_compute. constructor.
  - subst x. intros n a L. unfold P, p_label, x_places, places_at, label in L. cbn in L. destruct (name_eqb n _); discriminate L || (injection L as <-; vm_compute; split; congruence).
  - subst x. vm_compute in Ei; injection Ei as <- <- <-. vm_compute. auto.
  - destruct (irun no_call (p_label P) (p_frame P) [] 1000 (cs ++ [the_end]) 0 q) as [pc qq | q2 |] eqn:I.
    1, 3: subst x; vm_compute in Ei; injection Ei as <- <- <-; vm_compute in G; injection G as <- <-; vm_compute in I; discriminate I.
    assert (q' = q2) as ->.
    { eapply ends_once; [exact R | | exact I]. unfold imove. cbn [length Nat.add]. rewrite nth_error_app2, Nat.sub_diag by reflexivity. reflexivity. }
    assert (Y : load (w_mem (i_world q2)) S4 (p_frame P - 8) = load (w_mem W') S4 (p_frame P - 8)) by (now rewrite Rw). clear R Rw H.
    subst x. vm_compute in Ei; injection Ei as <- <- <-. vm_compute in G. injection G as <- <-. vm_compute in V. injection V as <-. vm_compute in I. injection I as <-. vm_compute in Y. discriminate Y.
Qed.
