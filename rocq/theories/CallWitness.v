(** Calls for which C44 or C45 fail *)
From Coq Require Import FMapPositive.
From Verif Require Import Base DriverModel ImmcModel X64Model X64Decode TypeProofs CSem CProgram TestC TestLib Machine X64Isa CallSpec.
Local Open Scope Z_scope.

(** * C45: a call among the arguments of another, while one argument is on the stack *)
Definition nested_call : list Z := bytes "int f(int a, int b){return a-b;} int g(int x){return x;} int main(void){return f(g(1), 2);}".
(** walking through the code of a function, [n] steps; what is called changes nothing *)
Fixpoint label_index (F : list x64) (l : name) : option nat :=
  match F with
  | [] => None
  | X64_LABEL _ _ n :: r => if name_eqb n l then Some O else option_map S (label_index r l)
  | _ :: r => option_map S (label_index r l)
  end.
Fixpoint walk (e : X64Isa.env) (F : list x64) (n : nat) (p : nat) (m : state) : option (nat * state) :=
  match n with
  | O => Some (p, m)
  | S n =>
      match nth_error F p with
      | Some (X64_LABEL _ _ _) => walk e F n (S p) m
      | Some (X64_INST t s d) =>
          match decode t s d with
          | Some i => match exec e i m with Next m' | Calls _ m' | Calls_at _ m' => walk e F n (S p) m' | Goto l m' => match label_index F l with Some q => walk e F n q m' | None => None end | _ => None end
          | None => None
          end
      | _ => None
      end
  end.
Lemma steps_trans e F a b c : steps e F a b -> steps e F b c -> steps e F a c.
Proof. intros A B. induction B as [| b c d B IH S]; [exact A |]. exact (steps_step _ _ _ _ _ (IH A) S). Qed.
Lemma label_index_ok l : forall F q, label_index F l = Some q -> exists t v, nth_error F q = Some (X64_LABEL t v l).
Proof.
  induction F as [| c F IH]; intros q H; [discriminate H |].
  assert (N : option_map S (label_index F l) = Some q -> exists t v, nth_error (c :: F) q = Some (X64_LABEL t v l)).
  { clear H. intros H. destruct (label_index F l) as [k |]; [| discriminate H]. injection H as <-. cbn. now apply IH. }
  cbn in H. destruct c as [| | | t v n]; auto. destruct (name_eqb n l) eqn:E; [| auto]. injection H as <-. apply name_eqb_eq in E. subst n. cbn. eauto.
Qed.
Lemma walk_steps e F : forall n p m p' m', walk e F n p m = Some (p', m') -> steps e F (p, m) (p', m').
Proof.
  induction n as [| n IH]; intros p m p' m' H; cbn in H; [injection H as <- <-; constructor |].
  destruct (nth_error F p) as [[t s d | | | t v l] |] eqn:N; try discriminate.
  - destruct (decode t s d) as [i |] eqn:D; [| discriminate].
    destruct (exec e i m) as [m1 | l m1 | l m1 | a m1 | |] eqn:X; try discriminate.
    + eapply steps_trans; [eapply steps_step; [apply steps_refl | eapply step_next; eassumption] | apply IH, H].
    + destruct (label_index F l) as [q |] eqn:Q; [| discriminate]. destruct (label_index_ok _ _ _ Q) as (t' & v & L).
      eapply steps_trans; [eapply steps_step; [apply steps_refl | eapply step_jump; eassumption] | apply IH, H].
    + eapply steps_trans; [eapply steps_step; [apply steps_refl | eapply step_call; eauto; intros q _; reflexivity] | apply IH, H].
    + eapply steps_trans; [eapply steps_step; [apply steps_refl | eapply step_call; eauto; intros q _; reflexivity] | apply IH, H].
  - eapply steps_trans; [eapply steps_step; [apply steps_refl | eapply step_label; eassumption] | apply IH, H].
Qed.
(** the start of [main] *)
Definition start : state := mkstate (mkregs 0 0 0 0 4088 0 0 0 0 0 0 0 0 0 0 0) None (mkmem (PositiveMap.empty Z) [(0, 8192)] 0).
(** the code of the function named [n] *)
Fixpoint body_of (X : list x64) : list x64 := match X with [] => [] | c :: r => if x64_external c then [] else c :: body_of r end.
Fixpoint find_function (n : name) (X : list x64) : option (list x64 * list x64 * list x64) :=
  match X with
  | [] => None
  | X64_LABEL X64_LABEL_FUNCTION v l :: r => if name_eqb l n then Some ([], X64_LABEL X64_LABEL_FUNCTION v l :: body_of r, skipn (length (body_of r)) r)
      else match find_function n r with Some (a, b, c) => Some (X64_LABEL X64_LABEL_FUNCTION v l :: a, b, c) | None => None end
  | c :: r => match find_function n r with Some (a, b, d) => Some (c :: a, b, d) | None => None end
  end.
Lemma body_of_ok X : X = body_of X ++ skipn (length (body_of X)) X /\ (forall c, In c (body_of X) -> x64_external c = false) /\ match skipn (length (body_of X)) X with [] => True | c :: _ => x64_external c = true end.
Proof.
  induction X as [| c X IH]; [cbn; split; [reflexivity | split; [intros c [] | exact Logic.I]] |]. destruct IH as (E1 & E2 & E3). cbn. destruct (x64_external c) eqn:E; cbn; [split; [reflexivity | split; [intros d [] | exact E]] |]. split; [now rewrite <- E1 |]. split; [| exact E3]. intros d [<- | I]; auto.
Qed.
Lemma find_function_ok n : forall X a b c, find_function n X = Some (a, b, c) -> x64_function X b.
Proof.
  assert (MORE : forall x X b, x64_function X b -> x64_function (x :: X) b).
  { intros x X b (before & after & v & l & body & -> & H). exists (x :: before), after, v, l, body. split; [reflexivity | exact H]. }
  induction X as [| x X IH]; intros a b c H; [discriminate H |]. cbn in H.
  assert (NEXT : match find_function n X with Some (a, b, d) => Some (x :: a, b, d) | None => None end = Some (a, b, c) -> x64_function (x :: X) b).
  { clear H. intros H. destruct (find_function n X) as [[[a' b'] c'] |]; [| discriminate H]. injection H as <- <- <-. apply MORE. eapply IH. reflexivity. }
  destruct x as [| | | [] v l]; try (apply NEXT, H). destruct (name_eqb l n); [| apply NEXT, H].
  injection H as <- <- <-. destruct (body_of_ok X) as (E1 & E2 & E3). exists [], (skipn (length (body_of X)) X), v, l, (body_of X). split; [cbn; now rewrite <- E1 | auto].
Qed.
Definition no_labels : X64Isa.env := fun _ => None.
Definition stack_aligned : Prop := forall src X F e m0 p m,
  compile_codes src = Ok X -> x64_function X F -> (forall q, 0 <= rget (regs m0) q < 2 ^ 64) -> rget (regs m0) RSP mod 16 = 8 ->
  steps e F (0%nat, m0) (p, m) -> calling e F p m -> rget (regs m) RSP mod 16 = 0.
Definition main_of (src : list Z) : list x64 := match compile_codes src with Ok X => match find_function (bytes "main") X with Some (_, F, _) => F | None => [] end | _ => [] end.
Lemma nested_misaligned : ~ stack_aligned.
Proof.
  intros H. destruct (compile_codes nested_call) as [X | | | |] eqn:C; [| vm_compute in C; discriminate C ..].
  assert (F : x64_function X (main_of nested_call)).
  { unfold main_of. rewrite C. destruct (find_function (bytes "main") X) as [[[a F] c] |] eqn:FF; [eapply find_function_ok, FF |]. vm_compute in C. injection C as <-. vm_compute in FF. discriminate FF. }
  destruct (walk no_labels (main_of nested_call) 7 0 start) as [[p m] |] eqn:W; [| vm_compute in W; discriminate W].
  assert (A : rget (regs m) RSP mod 16 = 0).
  { apply (H _ _ _ no_labels start p m C F); [intros []; vm_compute; split; congruence | reflexivity | apply (walk_steps _ _ _ _ _ _ _ W) |].
    vm_compute in W. injection W as <- <-. do 4 eexists. split; [vm_compute; reflexivity |]. split; [vm_compute; reflexivity |]. left. eexists. vm_compute. reflexivity. }
  vm_compute in W. injection W as <- <-. vm_compute in A. discriminate A.
Qed.

(** * C44: two values are kept in %rbx and %rbp during a call; %rbp is where local variables are found *)
Definition second_evacuation : list Z := bytes "int f(int x){return x;} int main(void){int a=1; int b=2; int c; c = a + (b + f(3)); return c;}".
Lemma second_evacuation_wrong : c_run 1000 second_evacuation = Ok (6, []) /\ run_source 1000 second_evacuation = Ok Wrong.
Proof. split; vm_compute; reflexivity. Qed.
(** in a function, between the prologue and the epilogue, %rbp is 8 below the stack pointer at entry *)
Definition frame_kept : Prop := forall src X F e m0 p m,
  compile_codes src = Ok X -> x64_function X F -> (forall q, 0 <= rget (regs m0) q < 2 ^ 64) -> 8 <= rget (regs m0) RSP ->
  steps e F (0%nat, m0) (p, m) -> calling e F p m -> rget (regs m) RBP = rget (regs m0) RSP - 8.
Lemma frame_lost : ~ frame_kept.
Proof.
  intros H. destruct (compile_codes second_evacuation) as [X | | | |] eqn:C; [| vm_compute in C; discriminate C ..].
  assert (F : x64_function X (main_of second_evacuation)).
  { unfold main_of. rewrite C. destruct (find_function (bytes "main") X) as [[[a F] c] |] eqn:FF; [eapply find_function_ok, FF |]. vm_compute in C. injection C as <-. vm_compute in FF. discriminate FF. }
  destruct (walk no_labels (main_of second_evacuation) 15 0 start) as [[p m] |] eqn:W; [| vm_compute in W; discriminate W].
  assert (A : rget (regs m) RBP = 4080).
  { apply (H _ _ _ no_labels start p m C F); [intros []; vm_compute; split; congruence | vm_compute; congruence | apply (walk_steps _ _ _ _ _ _ _ W) |].
    vm_compute in W. injection W as <- <-. do 4 eexists. split; [vm_compute; reflexivity |]. split; [vm_compute; reflexivity |]. left. eexists. vm_compute. reflexivity. }
  vm_compute in W. injection W as <- <-. vm_compute in A. discriminate A.
Qed.

(** * A program with calls for which the hypotheses of the theorems hold *)
Definition calls_only : list Z := bytes "int g(int x){return x;} int f(int a, int b, int c, int d, int e, int h, int i){return i-b;} int main(void){int t; t = f(1,2,3,4,5,6,7); return g(t)+g(t);}".
Definition after_call (src : list Z) (n : nat) : state := match walk no_labels (main_of src) n 0 start with Some (_, m) => m | None => start end.
Definition place_after (src : list Z) (n : nat) : nat := match walk no_labels (main_of src) n 0 start with Some (p, _) => p | None => 0%nat end.
