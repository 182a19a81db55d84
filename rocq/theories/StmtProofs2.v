(** The code of an initialiser of a local object stores what C says *)
From Verif Require Import Base SrtModel ImmcModel ImmcgenModel X64Isa X64Decode OpSpec TypeSpec TypeProofs CSem ImmcSem GenSpec ElabProofs GenProofs IsaProofs LabelSpec ExprProofs ExprProofs2 ExprProofs4 ExprProofs6 ExprProofs8 StmtProofs.
Open Scope Z_scope.

Section Sim.
Variables (call : caller) (P : places) (params : list (size * Z)) (C : list immc).
Hypothesis NL : NoDup (labels C).
Hypothesis PP : places_ok P.
Notation go := (reaches call (p_label P) (p_frame P) params C).
Notation step := (istep call (p_label P) (p_frame P) params).
Notation at_ := (code_at C).
Notation ev := (eval call P).
Notation addr := (iaddress (p_label P) (p_frame P)).
Notation runs_to := (runs_to call P params C).
Notation init := (initialise call P).

Fixpoint init_elements (Sc : scopes) (e : dtype) (l : list srt) (a : Z) (W : world) : res world :=
  match l with [] => Ok W | c :: r => do W <- init Sc c e a W; init_elements Sc e r (a + sizeof e) W end.
Fixpoint init_members (Sc : scopes) (a : Z) (l : list srt) (ms : list (name * dtype * Z)) (W : world) : res world :=
  match l, ms with
  | [], [] => Ok W
  | c :: r, (_, t, off) :: ms => do W <- init Sc c t (a + off) W; init_members Sc a r ms W
  | _, _ => Fatal
  end.
Definition init' (Sc : scopes) (cs : list srt) (d : dtype) (a : Z) (W : world) : res world :=
  match d with
  | DTYPE_ARRAY e n =>
      match is_string cs with
      | Some l =>
          if negb (in_space a (sizeof d)) then UB else
          if Z.of_nat (length l) =? sizeof d then
            match put_chars (w_mem W) a l with Some m => Ok (set_wmem W m) | None => UB end
          else Fatal
      | None => if Z.of_nat (length cs) =? n then init_elements Sc e cs a W else Fatal
      end
  | DTYPE_USTRUCT _ _ _ | DTYPE_NSTRUCT _ _ _ =>
      match struct_members (s_tags Sc) d with Some ms => init_members Sc a cs ms W | None => Fatal end
  | _ =>
      match cs with
      | [e] =>
          do _ <- check (alike (Some d) (srt_dtype e));
          do (v, W) <- ev Sc e W; if in_space a (sizeof d) then store_as d a v W else UB
      | _ => Fatal
      end
  end.
Lemma init_eq Sc o p cs d a W : init Sc (Srt SRT_INIT o p cs) d a W = init' Sc cs d a W.
Proof.
  assert (A : forall e l a W, (fix elements (l : list srt) (a : Z) (W : world) {struct l} : res world :=
      match l with [] => Ok W | c :: r => do W <- init Sc c e a W; elements r (a + sizeof e) W end) l a W = init_elements Sc e l a W).
  { intros e l. induction l as [| c r IH]; intros a0 W0; [reflexivity |]. cbn [init_elements]. destruct (init Sc c e a0 W0); try reflexivity; apply IH. }
  assert (B : forall l ms W, (fix members (l : list srt) (ms : list (name * dtype * Z)) (W : world) {struct l} : res world :=
      match l, ms with [], [] => Ok W | c :: r, (_, t, off) :: ms => do W <- init Sc c t (a + off) W; members r ms W | _, _ => Fatal end) l ms W = init_members Sc a l ms W).
  { intros l. induction l as [| c r IH]; intros [| [[n t] off] ms] W0; try reflexivity. cbn [init_members]. destruct (init Sc c t (a + off) W0); try reflexivity; apply IH. }
  cbn [initialise]. unfold init'. destruct d; try reflexivity.
  - cbn [is_string]. rewrite A. unfold is_string. destruct cs as [| c [| c' cs]]; try reflexivity; destruct c as [ct ? cp ?]; destruct ct; try reflexivity; destruct cp; reflexivity.
  - destruct (struct_members _ _); [apply B | reflexivity].
  - destruct (struct_members _ _); [apply B | reflexivity].
Qed.

Definition init_done (f : nat) (s : srt) (d : dtype) (k : Z) : Prop :=
  forall a st cs st' Sc W W' q p,
  gen f (Some d) s st = Ok (cs, st') -> regular_init (s_tags Sc) s d = Some k -> env Sc st -> is_global st = false ->
  init Sc s d a W = Ok W' -> low S8 (p_frame P - g_off st) = low S8 a -> at_ p cs -> i_world q = W ->
  exists q', runs_to p cs q q' (g_next st) W'.
Lemma low_shift x a k : low S8 x = low S8 a -> low S8 (x + k) = low S8 (a + k).
Proof. intros H. apply low_add; [exact H | reflexivity]. Qed.

Section Init.
Variable f : nat.
Hypothesis IH : forall s d k, init_done f s d k.
Lemma elements_done s e : forall l pre a st cs st' Sc W W' q p, srt_children s = pre ++ l -> all_fill (s_tags Sc) e l = true ->
  gen_elements (gen f) s e (length pre) (length l) st = Ok (cs, st') -> env Sc st -> is_global st = false ->
  init_elements Sc e l a W = Ok W' -> low S8 (p_frame P - g_off st) = low S8 a -> at_ p cs -> i_world q = W ->
  exists q', runs_to p cs q q' (g_next st) W'.
Proof.
  induction l as [| c l IHl]; intros pre a st cs st' Sc W W' q p El Af H En Gl I O A Wq; cbn [length gen_elements] in H.
  - injection H as <- <-. injection I as <-. exists q. now apply runs_nil.
  - apply bind_ok in H as (c' & Hc & H). apply bind_ok in H as ([c1 st1] & H1 & H). apply bind_ok in H as ([c2 st2] & H2 & H). injection H as <- <-.
    apply deref_ok in Hc. rewrite El, nth_error_app2, Nat.sub_diag in Hc by lia. injection Hc as ->.
    cbn [all_fill] in Af. destruct (regular_init (s_tags Sc) c' e) as [z |] eqn:Ez; [| discriminate Af]. apply andb_prop in Af as [Az Af]. apply Z.eqb_eq in Az. subst z.
    cbn [init_elements] in I. apply bind_ok in I as (W1 & I1 & I). apply code_at_app in A as [A1 A2].
    destruct (IH _ _ _ _ _ _ _ _ _ _ _ _ H1 Ez En Gl I1 O A1 Wq) as (q1 & R1).
    assert (D1 : drift (sizeof e) st st1) by (eapply init_drift; [rewrite <- (proj2 En); exact Ez | exact Gl | exact H1]).
    destruct (IHl (pre ++ [c']) (a + sizeof e) st1 c2 st2 Sc W1 W' q1 (p + length c1)%nat) as (q2 & R2).
    + now rewrite <- app_assoc.
    + exact Af.
    + rewrite app_length, Nat.add_1_r. exact H2.
    + destruct D1 as [[D1 D2] _]. cbn in D1, D2. destruct En. split; congruence.
    + now rewrite (drift_global _ _ _ D1).
    + exact I.
    + rewrite (proj2 D1). replace (p_frame P - (g_off st - sizeof e)) with (p_frame P - g_off st + sizeof e) by lia. now apply low_shift.
    + exact A2.
    + exact (proj1 (proj2 R1)).
    + exists q2. assert (N := st_next _ _ (proj1 D1)). cbn in N. eapply (runs_app _ _ _ _ _ _ _ _ _ _ _ (g_next st1)); [exact R1 | exact R2 | exact N].
Qed.
Lemma members_done s base : forall ms l pre k0 k a st cs st' Sc W W' q p, srt_children s = pre ++ l -> members_fill (s_tags Sc) l ms k0 = Some k ->
  gen_local_members (gen f) s base ms (length pre) st = Ok (cs, st') -> env Sc st -> is_global st = false ->
  init_members Sc a l ms W = Ok W' -> low S8 (p_frame P - base) = low S8 a -> at_ p cs -> i_world q = W ->
  exists q', runs_to p cs q q' (g_next st) W'.
Proof.
  induction ms as [| [[nm t] off] ms IHm]; intros l pre k0 k a st cs st' Sc W W' q p El Mf H En Gl I O A Wq; cbn [gen_local_members] in H.
  - injection H as <- <-. destruct l; [| discriminate I]. injection I as <-. exists q. now apply runs_nil.
  - apply bind_ok in H as (c & Hc & H). apply bind_ok in H as ([c1 st1] & H1 & H). apply bind_ok in H as ([c2 st2] & H2 & H). injection H as <- <-.
    apply deref_ok in Hc. rewrite El, nth_error_app2, Nat.sub_diag in Hc by lia. destruct l as [| c' l]; [discriminate Hc |]. injection Hc as ->.
    cbn [members_fill] in Mf. destruct (regular_init (s_tags Sc) c t) as [z |] eqn:Ez; [| discriminate Mf].
    cbn [init_members] in I. apply bind_ok in I as (W1 & I1 & I). apply code_at_app in A as [A1 A2].
    assert (O1 : low S8 (p_frame P - g_off (gset_off (base - off) st)) = low S8 (a + off)).
    { cbn. replace (p_frame P - (base - off)) with (p_frame P - base + off) by lia. now apply low_shift. }
    destruct (IH _ _ _ _ (gset_off (base - off) st) _ _ Sc _ _ _ _ H1 Ez En Gl I1 O1 A1 Wq) as (q1 & R1).
    assert (D1 : drift z (gset_off (base - off) st) st1) by (eapply init_drift; [cbn; rewrite <- (proj2 En); exact Ez | exact Gl | exact H1]).
    destruct (IHm l (pre ++ [c]) (off + z) k a st1 c2 st2 Sc W1 W' q1 (p + length c1)%nat) as (q2 & R2).
    + now rewrite <- app_assoc.
    + exact Mf.
    + rewrite app_length, Nat.add_1_r. exact H2.
    + destruct D1 as [[D1 D2] _]. cbn in D1, D2. destruct En. split; congruence.
    + now rewrite (drift_global _ _ _ D1).
    + exact I.
    + exact O.
    + exact A2.
    + exact (proj1 (proj2 R1)).
    + exists q2. assert (N := st_next _ _ (proj1 D1)). cbn in N. eapply (runs_app _ _ _ _ _ _ _ _ _ _ _ (g_next st1)); [exact R1 | exact R2 | exact N].
Qed.
End Init.
Lemma low_space a n : in_space a n = true -> 0 < n -> low S8 a = a.
Proof. unfold in_space. intros H N. apply low_small. cbn. lia. Qed.
Lemma scalar_done f o pl ch d k a st cs st' Sc W W' q p :
  match ch with [e] => if regular e then Some (sizeof d) else None | _ => None end = Some k ->
  gen_local_scalar_initializer (gen f) d (Srt SRT_INIT o pl ch) st = Ok (cs, st') -> env Sc st ->
  match ch with
  | [e] => do _ <- check (alike (Some d) (srt_dtype e)); do (v, W) <- ev Sc e W; if in_space a (sizeof d) then store_as d a v W else UB
  | _ => Fatal end = Ok W' ->
  low S8 (p_frame P - g_off st) = low S8 a -> at_ p cs -> i_world q = W -> exists q', runs_to p cs q q' (g_next st) W'.
Proof.
  intros R H En I O A Wq. destruct ch as [| e [| ? ?]]; try discriminate R. destruct (regular e) eqn:Re; [| discriminate R]. clear R k.
  unfold gen_local_scalar_initializer in H. cbv zeta in H. apply bind_ok in H as ([[c1 src] st1] & H1 & H). injection H as <- <-.
  apply bind_ok in I as ([] & Al & I). apply check_ok in Al. apply bind_ok in I as ([v W1] & Ev & I).
  destruct (in_space a (sizeof d)) eqn:Sp; [| discriminate I]. destruct (alike_kind _ _ Al) as (de & u & s & De & K & Ke & _).
  apply code_at_app in A as [A1 A2].
  edestruct (child_int_ok call P params C NL PP (gen f) (gen_stable f) (gen_simulated call P params C NL PP f)) as (q1 & R1 & Hs & S1 & _);
    [exact H1 | reflexivity | exact Re | exact En | exact Ev | exact De | exact Ke | exact A1 | exact Wq |].
  destruct (has_facts _ _ _ _ _ _ Hs) as (ua & sa & va & Ka' & Sa & Ua & Va & La). rewrite Ke in Ka'. injection Ka' as <- <-.
  unfold store_as in I. rewrite K in I. destruct (store _ _ _ _) as [m |] eqn:Sm; [| discriminate I]. injection I as <-.
  assert (Sm' : store (w_mem W1) s a va = Some m) by (rewrite <- Sm; now apply store_low).
  exists (set_world (set_wmem W1 m) q1). eapply (runs_app _ _ _ _ _ _ _ _ _ _ _ (g_next st)); [exact R1 | | reflexivity].
  eapply runs_step; [exact NL | exact A2 | | reflexivity | apply keep_set_world].
  eapply step_store; [| exact Sa | exact Va | exact (proj1 (proj2 R1)) | exact Sm']. cbn [iaddress new_mem_immcope]. rewrite O. f_equal. apply (low_space _ (sizeof d)); [exact Sp |].
  clear -K. destruct d; try discriminate K; cbn; lia.
Qed.
Theorem init_ok : forall f s d k, init_done f s d k.
Proof.
  induction f as [| f IH]; intros [t o pl ch] d k a st cs st' Sc W W' q p H R En Gl I O A Wq; [discriminate H |]. rewrite regular_init_eq in R. destruct t; try discriminate R.
  rewrite init_eq in I. cbn [gen] in H. unfold gen_body in H. cbn [srt_type] in H. unfold gen_initializer in H. cbn [deref bind] in H. unfold regular_init' in R. unfold init' in I.
  destruct d as [ | | | | | | | | t | d n | nm nb al | ms nb al | nm | ms | ps t | t];
  try (rewrite Gl in H; eapply scalar_done; [exact R | exact H | exact En | exact I | exact O | exact A | exact Wq]).
  - unfold gen_array_initializer in H. apply bind_ok in H as (c & Hc & H). apply deref_ok in Hc. cbn [srt_children] in Hc. destruct ch as [| c0 ch]; [discriminate Hc |]. injection Hc as ->.
    destruct (srt_is c SRT_SLITERAL_EXPR) eqn:Is.
    + destruct c as [ct cd cp cc]. destruct ct; try discriminate Is. apply bind_ok in H as (l & Hl & H). rewrite Gl in H. injection H as <- <-.
      destruct (is_string (Srt SRT_SLITERAL_EXPR cd cp cc :: ch)) as [l' |] eqn:Es.
      2: { destruct (all_fill _ _ _) eqn:Af; [| discriminate R]. cbn in Af. discriminate Af. }
      assert (l' = l). { destruct cp; try discriminate Hl. injection Hl as <-. cbn in Es. destruct ch; [now injection Es | discriminate Es]. } subst l'.
      destruct (negb _) eqn:Sp; [discriminate I |]. apply Bool.negb_false_iff in Sp. destruct (_ =? _) eqn:Ln in I; [| discriminate I]. destruct (put_chars _ _ _) as [m |] eqn:Pc; [| discriminate I]. injection I as <-.
      exists (set_world (set_wmem W m) q). eapply runs_step; [exact NL | exact A | | reflexivity | apply keep_set_world]. cbn [inst2 istep new_mem_immcope new_str_immcope iaddress].
      rewrite O. destruct l as [| x l].
      * cbn in Pc. injection Pc as <-. cbn [put_chars]. rewrite Wq. reflexivity.
      * rewrite (low_space a (sizeof (DTYPE_ARRAY d n))) by (exact Sp || (cbn [length] in Ln; lia)). rewrite Wq, Pc. reflexivity.
    + assert (Es : is_string (c :: ch) = None). { destruct c as [ct cd cp cc]. destruct ct; try discriminate Is; cbn; now destruct ch. }
      rewrite Es in R, I. destruct (all_fill _ _ _) eqn:Af; [| discriminate R]. destruct (_ =? n) eqn:Ln in I; [| discriminate I].
      assert (En' : Z.to_nat n = length (c :: ch)) by lia. rewrite En' in H.
      eapply (elements_done f IH (Srt SRT_INIT o pl (c :: ch)) d (c :: ch) []); [reflexivity | exact Af | exact H | exact En | exact Gl | exact I | exact O | exact A | exact Wq].
  - cbn [struct_members] in R, I. apply bind_ok in H as (d & Hd & H). apply deref_ok in Hd. rewrite <- (proj2 En) in Hd. rewrite Hd in R, I. destruct d; try discriminate R.
    unfold gen_struct_initializer in H. rewrite Gl in H.
    eapply (members_done f IH (Srt SRT_INIT o pl ch) (g_off st) _ ch [] 0 k); [reflexivity | exact R | exact H | exact En | exact Gl | exact I | exact O | exact A | exact Wq].
  - cbn [struct_members] in R, I. unfold gen_struct_initializer in H. rewrite Gl in H.
    eapply (members_done f IH (Srt SRT_INIT o pl ch) (g_off st) _ ch [] 0 k); [reflexivity | exact R | exact H | exact En | exact Gl | exact I | exact O | exact A | exact Wq].
Qed.
End Sim.
