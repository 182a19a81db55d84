(** What generating the code of a statement does to the state of the generator *)
From Verif Require Import Base SrtModel ImmcModel ImmcgenModel X64Isa X64Decode OpSpec TypeSpec TypeProofs CSem ImmcSem GenSpec ElabProofs GenProofs LabelSpec LabelProofs ExprProofs ExprProofs2.
Open Scope Z_scope.

(** * Initialisers *)
(** the place of the next scalar has moved by [k] bytes *)
Definition drift (k : Z) (st st' : gst) : Prop := stable st (gset_off (g_off st) st') /\ g_off st' = g_off st - k.
Lemma drift_trans j k a b c : drift j a b -> drift k b c -> drift (j + k) a c.
Proof. intros [[] ?] [[] ?]. cbn in *. split; [split; cbn; (congruence || lia) | lia]. Qed.
Lemma drift_global k st st' : drift k st st' -> is_global st' = is_global st.
Proof. intros [[] _]. unfold is_global. cbn in *. congruence. Qed.
Lemma drift_tags k st st' : drift k st st' -> g_tags st' = g_tags st.
Proof. now intros [[] _]. Qed.

Fixpoint all_fill (T : tagtab) (e : dtype) (l : list srt) : bool :=
  match l with
  | [] => true
  | c :: r => match regular_init T c e with Some k => (k =? sizeof e) && all_fill T e r | None => false end
  end.
Fixpoint members_fill (T : tagtab) (l : list srt) (ms : list (name * dtype * Z)) (k : Z) : option Z :=
  match l, ms with
  | [], _ => Some k
  | c :: r, (_, t, off) :: ms => match regular_init T c t with Some z => members_fill T r ms (off + z) | None => None end
  | _, _ => None
  end.
Definition is_string (cs : list srt) : option (list Z) :=
  match cs with [Srt SRT_SLITERAL_EXPR _ (SPStr l) _] => Some l | _ => None end.
Definition regular_init' (T : tagtab) (cs : list srt) (d : dtype) : option Z :=
  match d with
  | DTYPE_ARRAY e n =>
      match is_string cs with
      | Some _ => Some (sizeof d)
      | None => if all_fill T e cs then if Z.of_nat (length cs) =? n then Some (sizeof d) else None else None
      end
  | DTYPE_USTRUCT _ _ _ | DTYPE_NSTRUCT _ _ _ =>
      match struct_members T d with Some ms => members_fill T cs ms 0 | None => None end
  | _ => match cs with [e] => if regular e then Some (sizeof d) else None | _ => None end
  end.
Lemma regular_init_eq T t o p cs d : regular_init T (Srt t o p cs) d = match t with SRT_INIT => regular_init' T cs d | _ => None end.
Proof.
  destruct t; try reflexivity.
  assert (A : forall e l, (fix all (l : list srt) : bool := match l with [] => true | c :: r => match regular_init T c e with Some k => (k =? sizeof e) && all r | None => false end end) l = all_fill T e l).
  { intros e l. induction l as [| c r IH]; [reflexivity |]. cbn [all_fill]. destruct (regular_init T c e); [| reflexivity]. now rewrite IH. }
  assert (B : forall l ms k, (fix members (l : list srt) (ms : list (name * dtype * Z)) (k : Z) {struct l} : option Z :=
      match l, ms with | [], _ => Some k | c :: r, (_, t, off) :: ms => match regular_init T c t with Some z => members r ms (off + z) | None => None end | _, _ => None end) l ms k = members_fill T l ms k).
  { intros l. induction l as [| c r IH]; intros [| [[n t] off] ms] k; try reflexivity. cbn [members_fill]. destruct (regular_init T c t); [| reflexivity]. apply IH. }
  cbn [regular_init]. unfold regular_init'. destruct d; try reflexivity.
  - cbn [is_string]. rewrite A. unfold is_string. destruct cs as [| c [| c' cs]]; try reflexivity; destruct c as [ct ? cp ?]; destruct ct; try reflexivity; destruct cp; reflexivity.
  - destruct (struct_members T _); [apply B | reflexivity].
  - destruct (struct_members T _); [apply B | reflexivity].
Qed.

Section Init.
Variable f : nat.
Hypothesis IH : forall s d k st cs st', regular_init (g_tags st) s d = Some k -> is_global st = false -> gen f (Some d) s st = Ok (cs, st') -> drift k st st'.
Lemma all_fill_nth T e : forall l i c, all_fill T e l = true -> nth_error l i = Some c -> regular_init T c e = Some (sizeof e).
Proof.
  induction l as [| x l IHl]; intros [| i] c A N; cbn in N; try discriminate N; cbn in A; destruct (regular_init T x e) eqn:E; try discriminate A;
  apply andb_prop in A as [A1 A2]; [injection N as <-; rewrite E; f_equal; lia | eauto].
Qed.
Lemma elements_drift s e : forall n i st cs st', all_fill (g_tags st) e (srt_children s) = true -> is_global st = false ->
  gen_elements (gen f) s e i n st = Ok (cs, st') -> drift (sizeof e * Z.of_nat n) st st'.
Proof.
  induction n as [| n IHn]; intros i st cs st' A Gl H; cbn [gen_elements] in H.
  - injection H as _ <-. split; [apply stable_refl' || (split; cbn; try reflexivity) | lia].
  - apply bind_ok in H as (c & Hc & H). apply bind_ok in H as ([c1 st1] & H1 & H). apply bind_ok in H as ([c2 st2] & H2 & H). injection H as _ <-.
    apply deref_ok in Hc. assert (D1 := IH _ _ _ _ _ _ (all_fill_nth _ _ _ _ _ A Hc) Gl H1).
    apply IHn in H2; [| rewrite (drift_tags _ _ _ D1); exact A | rewrite (drift_global _ _ _ D1); exact Gl].
    replace (sizeof e * Z.of_nat (S n)) with (sizeof e + sizeof e * Z.of_nat n) by lia. eapply drift_trans; eassumption.
Qed.
Lemma members_drift s base : forall ms l pre k0 k st cs st', srt_children s = pre ++ l -> members_fill (g_tags st) l ms k0 = Some k -> is_global st = false ->
  g_off st = base - k0 ->
  gen_local_members (gen f) s base ms (length pre) st = Ok (cs, st') -> drift (k - k0) st st'.
Proof.
  induction ms as [| [[nm t] off] ms IHm]; intros l pre k0 k st cs st' El F Gl O H; cbn [gen_local_members] in H.
  - injection H as _ <-. destruct l; [| discriminate F]. injection F as <-. split; [split; cbn; try reflexivity | lia].
  - apply bind_ok in H as (c & Hc & H). apply bind_ok in H as ([c1 st1] & H1 & H). apply bind_ok in H as ([c2 st2] & H2 & H). injection H as _ <-.
    apply deref_ok in Hc. rewrite El, nth_error_app2, Nat.sub_diag in Hc by lia. destruct l as [| c' l]; [discriminate Hc |]. injection Hc as ->.
    cbn [members_fill] in F. destruct (regular_init (g_tags st) c t) as [z |] eqn:Ez; [| discriminate F].
    assert (D1 : drift z (gset_off (base - off) st) st1) by (eapply IH; [exact Ez | exact Gl | exact H1]).
    assert (T1 := drift_tags _ _ _ D1). assert (G1 := drift_global _ _ _ D1). cbn in T1.
    assert (D2 : drift (k - (off + z)) st1 st2).
    { apply (IHm l (pre ++ [c]) (off + z) k st1 c2 st2); [now rewrite <- app_assoc | now rewrite T1 | now rewrite G1 | destruct D1 as [_ ->]; cbn; lia |].
      rewrite app_length, Nat.add_1_r. exact H2. }
    destruct D1 as [[] D1], D2 as [[] D2]. cbn in *. split; [split; cbn; (congruence || lia) | lia].
Qed.
End Init.
Lemma init_drift : forall f s d k st cs st', regular_init (g_tags st) s d = Some k -> is_global st = false -> gen f (Some d) s st = Ok (cs, st') -> drift k st st'.
Proof.
  induction f as [| f IH]; intros [t o p ch] d k st cs st' R Gl H; [discriminate H |]. rewrite regular_init_eq in R. destruct t; try discriminate R.
  cbn [gen] in H. unfold gen_body in H. cbn [srt_type] in H. unfold gen_initializer in H. cbn [deref bind] in H. unfold regular_init' in R.
  assert (Sc : match ch with [e] => if regular e then Some (sizeof d) else None | _ => None end = Some k -> (if is_global st then gen_global_scalar_initializer d (Srt SRT_INIT o p ch) st
       else gen_local_scalar_initializer (gen f) d (Srt SRT_INIT o p ch) st) = Ok (cs, st') -> drift k st st').
  { intros R0 H0. rewrite Gl in H0. destruct ch as [| e [| ? ?]]; try discriminate R0. destruct (regular e) eqn:Re; [| discriminate R0]. injection R0 as <-.
    unfold gen_local_scalar_initializer in H0. cbv zeta in H0. apply bind_ok in H0 as ([[c1 src] st1] & H1 & H0). injection H0 as _ <-.
    assert (S1 : stable st st1). { eapply (stable_int (gen f) (gen_stable f)); [| exact H1]. unfold GenProofs.kids. cbn. now rewrite Re. }
    rewrite nbytes_sizeof. destruct S1. split; [split; cbn; (congruence || lia) | cbn; lia]. }
  destruct d as [ | | | | | | | | t | d n | nm nb al | ms nb al | nm | ms | ps t | t]; try (apply Sc; [exact R | exact H]).
  - clear Sc. unfold gen_array_initializer in H. apply bind_ok in H as (c & Hc & H). apply deref_ok in Hc. cbn [srt_children] in Hc. destruct ch as [| c0 ch]; [discriminate Hc |]. injection Hc as ->.
    destruct (srt_is c SRT_SLITERAL_EXPR) eqn:Is.
    + destruct c as [ct cd cp cc]. destruct ct; try discriminate Is. apply bind_ok in H as (l & Hl & H). rewrite Gl in H. injection H as _ <-.
      assert (Ek : k = sizeof (DTYPE_ARRAY d n)). { destruct (is_string _) eqn:Es; [now injection R |]. destruct (all_fill _ _ _) eqn:Af; [| discriminate R]. cbn in Af. discriminate Af. }
      subst k. split; [split; cbn; try reflexivity | cbn; rewrite ?nbytes_sizeof; lia].
    + assert (Es : is_string (c :: ch) = None). { destruct c as [ct cd cp cc]. destruct ct; try discriminate Is; cbn; now destruct ch. }
      rewrite Es in R. destruct (all_fill _ _ _) eqn:Af; [| discriminate R]. destruct (_ =? n) eqn:En; [| discriminate R]. injection R as <-.
      assert (Ek : sizeof d * n = sizeof d * Z.of_nat (Z.to_nat n)) by (f_equal; lia). rewrite Ek.
      eapply (elements_drift f IH (Srt SRT_INIT o p (c :: ch))); [exact Af | exact Gl | exact H].
  - clear Sc. cbn [bind] in H. apply bind_ok in H as (d & Hd & H). apply deref_ok in Hd. cbn [struct_members] in R. rewrite Hd in R. destruct d; try discriminate R.
    unfold gen_struct_initializer in H. rewrite Gl in H. replace k with (k - 0) by lia.
    eapply (members_drift f IH (Srt SRT_INIT o p ch) (g_off st) _ ch [] 0 k); [reflexivity | exact R | exact Gl | lia | exact H].
  - clear Sc. cbn [struct_members] in R. unfold gen_struct_initializer in H. rewrite Gl in H. replace k with (k - 0) by lia.
    eapply (members_drift f IH (Srt SRT_INIT o p ch) (g_off st) _ ch [] 0 k); [reflexivity | exact R | exact Gl | lia | exact H].
Qed.

(** * Statements *)
(** from [st] to [st'], with new case labels [cl], [nd] default labels, and scopes [Sc] at the end *)
Record settles (cl : list iliteral) (nd : nat) (Sc : scopes) (st st' : gst) : Prop := {
  se_cont : g_cont st' = g_cont st;
  se_brk : g_brk st' = g_brk st;
  se_ret : g_ret st' = g_ret st;
  se_next : g_next st <= g_next st';
  se_label : g_label st <= g_label st';
  se_depth : length (g_syms st') = length (g_syms st);
  se_cases : match g_cases st with
             | Some c0 => exists new, g_cases st' = Some (c0 ++ new) /\ map snd new = cl
             | None => g_cases st' = None /\ cl = []
             end;
  se_same : nd = O -> g_default st' = g_default st;
  se_default : nd <> O -> 0 < g_default st';
  se_env : env Sc st'
}.
Lemma settles_refl Sc st : env Sc st -> settles [] 0 Sc st st.
Proof. intros E. split; try reflexivity; [| intros N; now destruct N | exact E]. destruct (g_cases st) as [c0 |]; [exists []; now rewrite app_nil_r | auto]. Qed.
Lemma settles_trans cl1 nd1 Sc1 cl2 nd2 Sc2 a b c : settles cl1 nd1 Sc1 a b -> settles cl2 nd2 Sc2 b c -> settles (cl1 ++ cl2) (nd1 + nd2) Sc2 a c.
Proof.
  intros [A1 A2 A3 A4 A5 A6 A7 A8 A9 A10] [B1 B2 B3 B4 B5 B6 B7 B8 B9 B10]. split; try congruence; try lia; try assumption.
  - destruct (g_cases a) as [c0 |].
    + destruct A7 as (n1 & A7 & <-). rewrite A7 in B7. destruct B7 as (n2 & -> & <-). exists (n1 ++ n2). now rewrite app_assoc, map_app.
    + destruct A7 as [A7 ->]. rewrite A7 in B7. destruct B7 as [-> ->]. auto.
Qed.
Lemma settles_stable Sc st st' : env Sc st -> stable st st' -> settles [] 0 Sc st st'.
Proof.
  intros E [S1 S2 S3 S4 S5 S6 S7 S8 S9 S10]. split; try assumption; try congruence; auto.
  - rewrite S7. destruct (g_cases st) as [c0 |]; [exists []; now rewrite app_nil_r | auto].
  - destruct E. split; congruence.
Qed.
Lemma settles_drift Sc k st st' : env Sc st -> drift k st st' -> settles [] 0 Sc st st'.
Proof. intros E [S _]. apply (settles_stable Sc) in S; [| exact E]. destruct S as [A1 A2 A3 A4 A5 A6 A7 A8 A9 A10]. split; assumption. Qed.

Fixpoint items_regular (Sc : scopes) (l : list srt) : bool :=
  match l with
  | [] => true
  | x :: r => regular_stmt Sc x && match after x Sc with Ok Sc => items_regular Sc r | _ => false end
  end.
Fixpoint items_literals (l : list srt) : list iliteral := match l with [] => [] | x :: r => case_literals x ++ items_literals r end.
Fixpoint items_defaults (l : list srt) : nat := match l with [] => O | x :: r => (defaults x + items_defaults r)%nat end.
Lemma regular_items Sc l :
  (fix items (Sc : scopes) (l : list srt) {struct l} : bool :=
     match l with [] => true | x :: r => regular_stmt Sc x && match after x Sc with Ok Sc => items Sc r | _ => false end end) Sc l = items_regular Sc l.
Proof. revert Sc. induction l as [| x r IH]; intros Sc; [reflexivity |]. cbn [items_regular]. destruct (after x Sc); try reflexivity; now rewrite IH. Qed.
Lemma literals_items l : (fix all (l : list srt) : list iliteral := match l with [] => [] | x :: r => case_literals x ++ all r end) l = items_literals l.
Proof. induction l as [| x r IH]; [reflexivity |]. cbn [items_literals]. now rewrite IH. Qed.
Lemma defaults_items l : (fix all (l : list srt) : nat := match l with [] => O | x :: r => (defaults x + all r)%nat end) l = items_defaults l.
Proof. induction l as [| x r IH]; [reflexivity |]. cbn [items_defaults]. now rewrite IH. Qed.
Lemma afters_items l Sc : (fix afters (l : list srt) (Sc : scopes) {struct l} : res scopes := match l with [] => Ok Sc | x :: r => do Sc <- after x Sc; afters r Sc end) l Sc = afters l Sc.
Proof. revert Sc. induction l as [| x r IH]; intros Sc; [reflexivity |]. cbn [afters]. destruct (after x Sc); try reflexivity; apply IH. Qed.

Definition deep2 (st : gst) : Prop := (2 <= length (g_syms st))%nat /\ 0 <= g_label st.
Lemma deep2_local st : deep2 st -> is_global st = false.
Proof. intros [D _]. unfold is_global. apply Nat.eqb_neq. lia. Qed.
Lemma deep2_settles cl nd Sc st st' : settles cl nd Sc st st' -> deep2 st -> deep2 st'.
Proof. intros [] [D L]. split; [lia | lia]. Qed.
Definition part (cs : list srt) : srt := Srt SRT_NULL_STMT None SPNone cs.
Lemma kids_part1 e : regular e = true -> GenProofs.kids (part [e]) = true.
Proof. intros R. unfold GenProofs.kids. cbn. now rewrite R. Qed.

Definition settled (s : srt) (Sc : scopes) (st st' : gst) : Prop := exists Sc', after s Sc = Ok Sc' /\ settles (case_literals s) (defaults s) Sc' st st'.
Section Stmt.
Variable f : nat.
Hypothesis IH : forall s Sc st cs st', regular_stmt Sc s = true -> env Sc st -> deep2 st -> gen f None s st = Ok (cs, st') -> settled s Sc st st'.
Lemma items_settle : forall l Sc st cs st', items_regular Sc l = true -> env Sc st -> deep2 st -> append_list (gen f) l st = Ok (cs, st') ->
  exists Sc', afters l Sc = Ok Sc' /\ settles (items_literals l) (items_defaults l) Sc' st st'.
Proof.
  induction l as [| x l IHl]; intros Sc st cs st' R En D H; cbn [append_list] in H.
  - injection H as _ <-. exists Sc. split; [reflexivity | now apply settles_refl].
  - apply bind_ok in H as ([c1 st1] & H1 & H). apply bind_ok in H as ([c2 st2] & H2 & H). injection H as _ <-.
    cbn in R. apply andb_prop in R as [R1 R2]. destruct (IH _ _ _ _ _ R1 En D H1) as (Sc1 & A1 & S1). rewrite A1 in R2.
    destruct (IHl _ _ _ _ R2 (se_env _ _ _ _ _ S1) (deep2_settles _ _ _ _ _ S1 D) H2) as (Sc2 & A2 & S2).
    exists Sc2. cbn [afters items_literals items_defaults]. rewrite A1. split; [exact A2 |]. eapply settles_trans; eassumption.
Qed.
Definition entered (st : gst) : gst := gset_tags (tag_enter (g_tags st)) (gset_syms (sym_enter (g_syms st)) st).
Lemma scope_settles cl nd (aft : res scopes) st cs st' fn :
  (forall cs st1, fn (entered st) = Ok (cs, st1) -> exists Sc0, aft = Ok Sc0 /\ settles cl nd Sc0 (entered st) st1) ->
  deep2 st -> gin_scope fn st = Ok (cs, st') -> exists Sc', (do Sc <- aft; leave Sc) = Ok Sc' /\ settles cl nd Sc' st st'.
Proof.
  intros F D H. unfold gin_scope in H. apply bind_ok in H as ([c1 st1] & H1 & H). apply bind_ok in H as (tags & Ht & H). apply bind_ok in H as (syms & Hs & H). injection H as _ <-.
  destruct (F _ _ H1) as (Sc0 & -> & S). destruct S as [A1 A2 A3 A4 A5 A6 A7 A8 A9 [E1 E2]]. cbn in *. unfold leave. rewrite E1, E2, Hs, Ht. cbn [bind]. eexists. split; [reflexivity |].
  destruct (g_syms st1) as [| a [| b r]]; cbn in A6; try (destruct D; lia). cbn in Hs. injection Hs as <-.
  split; cbn; auto. now split.
Qed.
Lemma env_entered Sc st : env Sc st -> env (enter Sc) (entered st).
Proof. intros [E1 E2]. unfold enter, entered. split; cbn; congruence. Qed.
Lemma deep2_entered st : deep2 st -> deep2 (entered st).
Proof. intros [D1 D2]. split; cbn; lia. Qed.
Lemma init_settles Sc d i k st cs st' : regular_init (g_tags st) i d = Some k -> env Sc st -> deep2 st -> gen f (Some d) i st = Ok (cs, st') -> settles [] 0 Sc st st'.
Proof. intros R E D H. eapply settles_drift; [exact E |]. eapply init_drift; [exact R | now apply deep2_local | exact H]. Qed.
Lemma settles_l cl nd Sc a b c : stable a b -> settles cl nd Sc b c -> settles cl nd Sc a c.
Proof. intros [S1 S2 S3 S4 S5 S6 S7 S8 S9 S10] [A1 A2 A3 A4 A5 A6 A7 A8 A9 A10]. split; try congruence; try lia; try assumption; try (now rewrite <- S7); intros; rewrite ?A8; auto. Qed.
Lemma settles_r cl nd Sc a b c : settles cl nd Sc a b -> stable b c -> settles cl nd Sc a c.
Proof.
  intros [A1 A2 A3 A4 A5 A6 A7 A8 A9 [A10 A11]] [S1 S2 S3 S4 S5 S6 S7 S8 S9 S10]. split; try congruence; try lia; try (now rewrite S7); try (split; congruence); intros N; rewrite S8; auto.
Qed.
Lemma init_decls_plain l : forallb (fun x => srt_is x SRT_INIT_DECL) l = true -> items_literals l = [] /\ items_defaults l = O.
Proof.
  induction l as [| [t d p cs] l IHl]; cbn [forallb]; [auto |]. intros H. apply andb_prop in H as [H1 H2]. destruct (IHl H2) as [E1 E2].
  destruct t; try discriminate H1. cbn. rewrite E1, E2. auto.
Qed.
Lemma ident_settles d n x Sc st cs st' : env Sc st -> deep2 st -> gen f None (Srt SRT_IDENT_DECL (Some d) (SPName n) x) st = Ok (cs, st') ->
  exists Sc', declare n d Sc = Ok Sc' /\ env Sc' st' /\ cs = [] /\ stable st (gset_syms (g_syms st) st') /\ length (g_syms st') = length (g_syms st).
Proof.
  intros [E1 E2] D H. destruct f as [| f']; [discriminate H |]. cbn [gen] in H. unfold gen_body in H. cbn [srt_type] in H. unfold gen_identifier_decl in H. cbn [srt_name srt_payload dty deref srt_dtype bind] in H.
  rewrite (deep2_local _ D) in H. cbn [orb] in H. apply bind_ok in H as (y & Hy & H). injection H as <- <-. unfold declare. rewrite E1.
  destruct (dtype_isobject d); cbn [negb] in Hy; rewrite Hy; cbn [bind]; eexists; (split; [reflexivity |]); (split; [split; [reflexivity | exact E2] |]); (split; [reflexivity |]);
  (split; [split; cbn; try reflexivity |]); cbn; [eapply define_memory_length; exact Hy | eapply define_label_length; exact Hy].
Qed.
Lemma expr_plain e : regular e = true -> case_literals e = [] /\ defaults e = O.
Proof. intros R. apply regular_is_expr in R. destruct e as [t d p cs]. cbn in R. destruct t; try discriminate R; auto. Qed.
Lemma srt_iliteral_int t d i l : srt_iliteral (Srt t d (SPInt i) l) = Ok i.
Proof. reflexivity. Qed.
Lemma stmt_settles s Sc st cs st' : regular_stmt Sc s = true -> env Sc st -> deep2 st -> gen_body (gen f) None s st = Ok (cs, st') -> settled s Sc st st'.
Proof.
  intros R En D H. assert (Gl := deep2_local _ D). destruct s as [t d p ch]. unfold gen_body in H. cbn [srt_type srt_children] in H.
  destruct t; try discriminate R.
  - (* declarations *) cbn [regular_stmt] in R. rewrite regular_items in R. apply andb_prop in R as [R1 R].
    destruct (items_settle _ _ _ _ _ R En D H) as (Sc' & A & S). exists Sc'. split; [cbn [after]; rewrite afters_items; exact A |].
    destruct (init_decls_plain _ R1) as [E1 E2]. rewrite E1, E2 in S. exact S.
  - (* tag *) clear R. unfold gen_tag_decl in H. apply bind_ok in H as (dd & Hd & H). apply deref_ok in Hd. cbn in Hd. subst d.
    assert (Pl : forall st', Ok (@nil immc, st) = Ok (cs, st') -> settles [] 0 Sc st st') by (intros st1 H1; injection H1 as _ <-; now apply settles_refl).
    destruct dd; try discriminate H; try (exists Sc; split; [cbn; now destruct p | exact (Pl _ H)]).
    apply bind_ok in H as (n & Hn & H). apply bind_ok in H as (tg & Ht & H). injection H as _ <-. destruct p; try discriminate Hn. injection Hn as ->.
    destruct En as [E1 E2]. exists (mkscopes (s_syms Sc) tg). split; [cbn; rewrite E2, Ht; reflexivity |].
    assert (S := settles_refl Sc st (conj E1 E2)). destruct S as [A1 A2 A3 A4 A5 A6 A7 A8 A9 A10]. split; cbn; auto. now split.
  - (* declarator *) destruct ch as [| [it [idt |] ip ic] ch]; try discriminate R; [| destruct it; destruct ch as [| ? [| ? ?]]; discriminate R].
    destruct it; try (destruct ch as [| ? [| ? ?]]; discriminate R). destruct ip as [| n | | |]; try (destruct ch as [| ? [| ? ?]]; discriminate R).
    unfold gen_init_decl in H. rewrite Gl in H. unfold gen_local_init_decl in H. apply bind_ok in H as ([c0 st0] & H0 & H). unfold append_child in H0. cbn [gchild srt_children nth_error deref bind] in H0.
    destruct (ident_settles _ _ _ _ _ _ _ En D H0) as (Sc1 & Dc & E1 & _ & S1 & L1).
    assert (S : settles [] 0 Sc1 st st0). { apply (settles_stable Sc) in S1; [| exact En]. destruct S1 as [A1 A2 A3 A4 A5 A6 A7 A8 A9 A10]. split; auto. }
    destruct ch as [| i [| ? ?]]; [| | discriminate R].
    + injection H as _ <-. exists Sc1. split; [exact Dc | exact S].
    + cbn [length srt_children Nat.eqb] in H. cbn [gchild srt_children nth_error deref bind srt_name srt_payload] in H. cbn [regular_stmt] in R. rewrite Dc in R.
      destruct E1 as [Es Et]. rewrite Es in R. apply bind_ok in H as (y & Hy & H). apply deref_ok in Hy. rewrite Hy in R. cbv zeta in H.
      apply bind_ok in H as ([c1 st1] & H1 & H). injection H as _ <-. destruct (regular_init _ _ _) as [k |] eqn:Ek; [| discriminate R].
      set (off := match sy_kind y with SYMBOL_MEM o => o | _ => -1 end) in *.
      assert (D0 : deep2 (gset_off off st0)). { apply (deep2_settles _ _ _ _ _ S) in D. exact D. }
      assert (S2 : settles [] 0 Sc1 (gset_off off st0) st1). { eapply (init_settles Sc1 _ _ k); [rewrite Et in Ek; exact Ek | now split | exact D0 | exact H1]. }
      exists Sc1. split; [exact Dc |]. apply (settles_trans [] 0 Sc1 [] 0 Sc1 st st0); [exact S |].
      destruct S2 as [A1 A2 A3 A4 A5 A6 A7 A8 A9 A10]. split; auto.
  - (* block *) cbn [regular_stmt] in R. rewrite regular_items in R. unfold settled. cbn [after case_literals defaults]. rewrite afters_items, literals_items, defaults_items.
    eapply scope_settles; [| exact D | exact H]. intros cs1 st1 H1. eapply items_settle; [exact R | now apply env_entered | now apply deep2_entered | exact H1].
  - (* case *) destruct ch as [| [vt vd vp vc] [| b [| ? ?]]]; try discriminate R; destruct vp; try discriminate R. cbn [regular_stmt] in R.
    unfold gen_case_stmt, next_label in H. cbn [gchild srt_children nth_error deref bind srt_iliteral srt_payload] in H. apply bind_ok in H as (cases & Hc & H). apply deref_ok in Hc. cbn in Hc.
    apply bind_ok in H as ([c1 st1] & H1 & H). injection H as _ <-. unfold append_child in H1. cbn [gchild srt_children nth_error deref bind] in H1.
    match type of H1 with gen f None b ?s = _ => set (sb := s) in * end.
    assert (Eb : env Sc sb) by (destruct En; now split). assert (Db : deep2 sb) by (destruct D; split; cbn; lia).
    destruct (IH _ _ _ _ _ R Eb Db H1) as (Sc' & A & S). exists Sc'. split; [exact A |]. destruct S as [A1 A2 A3 A4 A5 A6 A7 A8 A9 A10]. cbn in *. split; auto; [lia |].
    rewrite Hc. destruct A7 as (new & -> & <-). eexists. rewrite <- app_assoc. split; [reflexivity |]. reflexivity.
  - (* default *) destruct ch as [| b [| ? ?]]; try discriminate R. cbn [regular_stmt] in R. unfold gen_default_stmt, next_label in H. cbv zeta in H. cbn iota in H.
    apply bind_ok in H as ([c1 st1] & H1 & H). injection H as _ <-. unfold append_child in H1. cbn [gchild srt_children nth_error deref bind] in H1.
    match type of H1 with gen f None b ?s = _ => set (sb := s) in * end.
    assert (Eb : env Sc sb) by (destruct En; now split). assert (Db : deep2 sb) by (destruct D; split; cbn; lia).
    destruct (IH _ _ _ _ _ R Eb Db H1) as (Sc' & A & S). exists Sc'. split; [exact A |]. destruct S as [A1 A2 A3 A4 A5 A6 A7 A8 A9 A10]. cbn in *. rewrite app_nil_r, Nat.add_0_r.
    split; auto; [lia | intros N; discriminate N |]. intros _. destruct (defaults b); [rewrite A8 by reflexivity; destruct D; lia | apply A9; discriminate].
  - (* continue *) injection H as _ <-. exists Sc. split; [reflexivity | now apply settles_refl].
  - (* break *) injection H as _ <-. exists Sc. split; [reflexivity | now apply settles_refl].
  - (* return *) exists Sc. split; [reflexivity |]. cbn [case_literals defaults]. unfold gen_return_stmt in H. apply bind_ok in H as ([c1 st1] & H1 & H). injection H as _ <-.
    cbn [srt_children] in H1. destruct ch as [| e [| ? ?]]; try discriminate R; [injection H1 as _ <-; now apply settles_refl |].
    apply bind_ok in H1 as ([[c2 v] st2] & H1 & H2). injection H2 as _ <-. cbn [regular_stmt] in R. apply settles_stable; [exact En |].
    eapply (stable_int (gen f) (gen_stable f) (part [e]) 0%nat); [now apply kids_part1 | exact H1].
  - (* expression *) exists Sc. split; [reflexivity |]. cbn [case_literals defaults]. destruct ch as [| e [| ? ?]]; try discriminate R. cbn [regular_stmt] in R.
    unfold gen_expression_stmt, append_child in H. cbn [gchild srt_children nth_error deref bind] in H. apply settles_stable; [exact En |].
    eapply stable_trans; [apply stable_reg | eapply gen_stable; [exact R | exact H]].
  - (* null *) injection H as _ <-. exists Sc. split; [reflexivity | now apply settles_refl].
  - (* if *) unfold gen_if_else_stmt in H. destruct ch as [| c [| a [| b [| ? ?]]]]; try discriminate R; cbn [srt_children length Nat.eqb] in H.
    + cbn [regular_stmt] in R. apply andb_prop in R as [R1 R2]. unfold gen_if_without_else_stmt, next_label in H. apply bind_ok in H as ([[c1 j] st1] & H1 & H). apply bind_ok in H as ([c2 st2] & H2 & H).
      unfold append_child in H2. cbn [gchild srt_children nth_error deref bind] in H2.
      assert (S1 : stable st st1). { eapply stable_trans; [| eapply (stable_jmp_cond (gen f) (gen_stable f) (part [c]) 0%nat); [now apply kids_part1 | exact H1]]. split; cbn; try reflexivity; lia. }
      assert (E1 : env Sc st1) by (eapply env_stable; eassumption).
      assert (D1 : deep2 st1) by (exact (deep2_settles _ _ _ _ _ (settles_stable Sc _ _ En S1) D)).
      destruct (IH _ _ _ _ _ R2 E1 D1 H2) as (Sc' & A & S). destruct (expr_plain _ R1) as [L1 L2].
      exists Sc'. split; [exact A |]. cbn [case_literals defaults]. rewrite L1, L2, app_nil_r, Nat.add_0_r. cbn [app plus].
      assert (Es : st' = st2) by (destruct (last_label c2); now injection H). subst st'. eapply settles_l; eassumption.
    + cbn [regular_stmt] in R. apply andb_prop in R as [R R3]. apply andb_prop in R as [R1 R2]. unfold gen_if_with_else_stmt, next_label in H.
      apply bind_ok in H as ([c1 st1] & H1 & H). apply bind_ok in H as ([c2 st2] & H2 & H). apply bind_ok in H as ([c3 st3] & H3 & H).
      unfold append_child in H2, H3. cbn [gchild srt_children nth_error deref bind] in H2, H3.
      assert (S1 : stable st st1). { eapply stable_trans; [| eapply (stable_jmp (gen f) (gen_stable f) (part [c]) 0%nat); [now apply kids_part1 | exact H1]]. split; cbn; try reflexivity; lia. }
      assert (E1 : env Sc st1) by (eapply env_stable; eassumption).
      assert (D1 : deep2 st1) by (exact (deep2_settles _ _ _ _ _ (settles_stable Sc _ _ En S1) D)).
      destruct (IH _ _ _ _ _ R2 E1 D1 H2) as (Sc1 & A1 & S2). rewrite A1 in R3.
      destruct (IH _ _ _ _ _ R3 (se_env _ _ _ _ _ S2) (deep2_settles _ _ _ _ _ S2 D1) H3) as (Sc2 & A2 & S3). destruct (expr_plain _ R1) as [L1 L2].
      exists Sc2. split; [cbn [after]; rewrite A1; exact A2 |]. cbn [case_literals defaults]. rewrite L1, L2, app_nil_r, Nat.add_0_r. cbn [app plus].
      assert (Es : st' = st3) by (destruct (last_label _); now injection H). subst st'. eapply settles_l; [exact S1 |]. eapply settles_trans; eassumption.
  - (* switch *) destruct ch as [| c [| b [| ? ?]]]; try discriminate R. cbn [regular_stmt] in R. apply andb_prop in R as [R _]. apply andb_prop in R as [R _]. apply andb_prop in R as [R1 R2].
    unfold gen_switch_stmt, next_label in H. apply bind_ok in H as ([[c1 r] st1] & H1 & H). cbv zeta in H. apply bind_ok in H as ([c2 st2] & H2 & H). apply bind_ok in H as (cases & Hc & H). injection H as _ <-.
    unfold append_child in H2. cbn [gchild srt_children nth_error deref bind] in H2.
    assert (S1 : stable st st1) by (eapply (stable_reg_ (gen f) (gen_stable f) (part [c]) 0%nat); [now apply kids_part1 | exact H1]).
    match type of H2 with gen f None b ?s = _ => set (sb := s) in * end.
    assert (Eb : env Sc sb) by (apply (env_stable _ _ _ En) in S1; destruct S1; now split).
    assert (Db : deep2 sb) by (apply (settles_stable Sc) in S1; [| exact En]; apply (deep2_settles _ _ _ _ _ S1) in D; destruct D; split; cbn in *; lia).
    destruct (IH _ _ _ _ _ R2 Eb Db H2) as (Sc' & A & S). exists Sc'. split; [exact A |]. cbn [case_literals defaults]. eapply settles_l; [exact S1 |].
    destruct S as [A1 A2 A3 A4 A5 A6 A7 A8 A9 [A10 A11]]. cbn in *. split; cbn; auto; try lia; [destruct (g_cases st1) as [c0 |]; [exists []; now rewrite app_nil_r | auto] | now split].
  - (* while *) destruct ch as [| c [| b [| ? ?]]]; try discriminate R. cbn [regular_stmt] in R. apply andb_prop in R as [R1 R2].
    unfold gen_while_stmt, next_label in H. apply bind_ok in H as ([c1 st1] & H1 & H). cbv zeta in H. apply bind_ok in H as ([c2 st2] & H2 & H). injection H as _ <-.
    unfold append_child in H2. cbn [gchild srt_children nth_error deref bind] in H2.
    assert (S1 : stable st st1). { eapply stable_trans; [| eapply (stable_jmp (gen f) (gen_stable f) (part [c]) 0%nat); [now apply kids_part1 | exact H1]]. split; cbn; try reflexivity; lia. }
    match type of H2 with gen f None b ?s = _ => set (sb := s) in * end.
    assert (Eb : env Sc sb) by (apply (env_stable _ _ _ En) in S1; destruct S1; now split).
    assert (Db : deep2 sb) by (apply (settles_stable Sc) in S1; [| exact En]; apply (deep2_settles _ _ _ _ _ S1) in D; exact D).
    destruct (IH _ _ _ _ _ R2 Eb Db H2) as (Sc' & A & S). exists Sc'. split; [exact A |]. destruct (expr_plain _ R1) as [L1 L2]. cbn [case_literals defaults]. rewrite L1, L2, app_nil_r, Nat.add_0_r. cbn [app plus].
    eapply settles_l; [exact S1 |]. destruct S as [A1 A2 A3 A4 A5 A6 A7 A8 A9 A10]. split; auto.
  - (* for *) destruct ch as [| [it id ip ic] ch]; [discriminate R |]. destruct ch as [| c ch]; [destruct it; discriminate R |].
    destruct ch as [| [ut ud up uc] ch]; [destruct it; discriminate R |]. destruct ch as [| b ch]; [destruct it; try discriminate R; destruct ut; discriminate R |].
    destruct ch as [| ? ?]; [| destruct it; try discriminate R; destruct ut; discriminate R].
    set (i := Srt it id ip ic) in *. set (u := Srt ut ud up uc) in *.
    assert (R' : exists Sc1 Sc2, regular_stmt (enter Sc) i = true /\ after i (enter Sc) = Ok Sc1 /\ regular_stmt Sc1 b = true /\ after b Sc1 = Ok Sc2 /\ regular_stmt Sc2 u = true
      /\ (match c with Srt SRT_EXPR_STMT _ _ [e] => regular e | Srt SRT_NULL_STMT _ _ _ => true | _ => false end) = true
      /\ case_literals i = [] /\ case_literals u = [] /\ defaults i = O /\ defaults u = O /\ after u Sc2 = Ok Sc2).
    { cbn [regular_stmt] in R. subst i u. destruct it; try discriminate R; destruct ut; try discriminate R;
      apply andb_prop in R as [R R3]; apply andb_prop in R as [R1 R2]; destruct (after _ (enter Sc)) as [Sc1 | | | |] eqn:Ea; try discriminate R3; apply andb_prop in R3 as [R3 R4];
      destruct (after b Sc1) as [Sc2 | | | |] eqn:Eb; try discriminate R4; exists Sc1, Sc2; splits; auto. }
    clear R. destruct R' as (Sc1 & Sc2 & Ri & Ai & Rb & Ab & Ru & Rc & L1 & L2 & L3 & L4 & Au).
    assert (Lc : case_literals c = [] /\ defaults c = O). { destruct c as [ct cd cp cc]. destruct ct; try discriminate Rc; auto. }
    unfold settled. cbn [after case_literals defaults]. rewrite L1, L2, L3, L4, (proj1 Lc), (proj2 Lc), app_nil_r, Nat.add_0_r. cbn [app plus].
    replace (after i (enter Sc)) with (Ok Sc1). cbn [bind]. eapply scope_settles; [| exact D | exact H]. intros cs1 st9 H9. clear H.
    assert (De := deep2_entered _ D). assert (Ee := env_entered _ _ En). generalize dependent (entered st). intros st0 H9 De Ee. clear st cs st' En D Gl.
    unfold gen_for_stmt, next_label in H9. unfold append_child in H9. cbn [gchild srt_children nth_error deref bind] in H9.
    apply bind_ok in H9 as ([c0 st1] & H0 & H). apply bind_ok in H as ([c1 st2] & H1 & H). cbv zeta in H. apply bind_ok in H as ([c2 st3] & H2 & H). apply bind_ok in H as ([c3 st4] & H3 & H). injection H as _ <-.
    match type of H0 with gen f None i ?s = _ => set (si := s) in * end.
    assert (S0 : stable st0 si) by (split; cbn; try reflexivity; lia). assert (Ei : env (enter Sc) si) by (eapply env_stable; eassumption). assert (Di : deep2 si) by (destruct De; split; cbn; lia).
    destruct (IH _ _ _ _ _ Ri Ei Di H0) as (Sc1' & Ai' & S1). rewrite Ai in Ai'. injection Ai' as <-. rewrite L1, L3 in S1.
    assert (S2 : stable st1 st2).
    { destruct c as [ct cd cp cc]. destruct ct; try discriminate Rc.
      - cbn [srt_is srt_type] in H1. destruct cc as [| e [| ? ?]]; try discriminate Rc. eapply (stable_jmp (gen f) (gen_stable f) (part [e]) 0%nat); [now apply kids_part1 | exact H1].
      - injection H1 as _ <-. apply stable_refl. }
    match type of H2 with gen f None b ?s = _ => set (sb := s) in * end.
    assert (S3 : settles [] 0 Sc1 st0 st2) by (eapply settles_l; [exact S0 |]; eapply settles_r; eassumption).
    assert (Eb : env Sc1 sb) by (destruct (se_env _ _ _ _ _ S3); now split).
    assert (Db : deep2 sb) by (apply (deep2_settles _ _ _ _ _ S3) in De; exact De).
    destruct (IH _ _ _ _ _ Rb Eb Db H2) as (Sc2' & Ab' & S4). rewrite Ab in Ab'. injection Ab' as <-. 
    match type of H3 with gen f None u ?s = _ => set (su := s) in * end.
    assert (S5 : settles (case_literals b) (defaults b) Sc2 st2 su). { destruct S4 as [A1 A2 A3 A4 A5 A6 A7 A8 A9 A10]. split; auto. }
    assert (S6 := settles_trans _ _ _ _ _ _ _ _ _ S3 S5). cbn [app plus] in S6.
    destruct (IH _ _ _ _ _ Ru (se_env _ _ _ _ _ S6) (deep2_settles _ _ _ _ _ S6 De) H3) as (Sc3 & Au' & S7). rewrite Au in Au'. injection Au' as <-. rewrite L2, L4 in S7.
    exists Sc2. split; [exact Ab |]. assert (S8 := settles_trans _ _ _ _ _ _ _ _ _ S6 S7). rewrite app_nil_r, Nat.add_0_r in S8. exact S8.
Qed.
End Stmt.
Theorem gen_settles : forall f s Sc st cs st', regular_stmt Sc s = true -> env Sc st -> deep2 st -> gen f None s st = Ok (cs, st') -> settled s Sc st st'.
Proof. induction f as [| f IH]; intros s Sc st cs st' R E D H; [discriminate H |]. cbn [gen] in H. eapply stmt_settles; eassumption. Qed.
