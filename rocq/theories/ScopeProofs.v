(** Proofs about the symbol table and the tag table: C21, C22 *)
From Verif Require Import Base DtypeModel SymtabModel TypeSpec TypeProofs ScopeSpec.
Local Open Scope Z_scope.

(** ** The runs of the two tables *)
(** [runs t0 h t]: from table [t0] the history [h] of operations leads to [t] *)
Inductive runs (t0 : symtab) : list (event declaration) -> symtab -> Prop :=
| runs_start : runs t0 [] t0
| runs_enter h t : runs t0 h t -> runs t0 (Enter :: h) (sym_enter t)
| runs_exit h t t' : runs t0 h t -> depth (Exit :: h) <> None -> sym_exit t = Ok t' -> runs t0 (Exit :: h) t'
| runs_label h t n d t' : runs t0 h t -> sym_can_define t n = Ok true ->
    sym_define_label t n d = Ok t' -> runs t0 (Declare n (DStatic d) :: h) t'
| runs_memory h t n d t' : runs t0 h t -> sym_can_define t n = Ok true ->
    sym_define_memory t n d = Ok t' -> runs t0 (Declare n (DLocal d) :: h) t'
| runs_integer h t n d i t' : runs t0 h t -> sym_can_define t n = Ok true ->
    sym_define_integer t n d i = Ok t' -> runs t0 (Declare n (DConstant d i) :: h) t'.

Inductive tag_runs : list (event (list (name * dtype) + list (name * Z))) -> tagtab -> Prop :=
| tag_start : tag_runs [] new_tagtab
| tag_runs_enter h t : tag_runs h t -> tag_runs (Enter :: h) (tag_enter t)
| tag_runs_exit h t t' : tag_runs h t -> depth (Exit :: h) <> None -> tag_exit t = Ok t' -> tag_runs (Exit :: h) t'
| tag_runs_struct h t n ms t' : tag_runs h t -> tag_can_define t n = Ok true -> tag_define_struct t n ms = Ok t' ->
    tag_runs (Declare n (inl ms) :: h) t'
| tag_runs_enum h t n ms t' : tag_runs h t -> tag_can_define t n = Ok true -> tag_define_enum t n ms = Ok t' ->
    tag_runs (Declare n (inr ms) :: h) t'.

Definition declared_as (y : symbol) (d : declaration) : Prop :=
  match d with
  | DStatic t => y = mksym SYMBOL_LABEL t
  | DLocal t => exists off, y = mksym (SYMBOL_MEM off) t
  | DConstant t i => y = mksym (SYMBOL_INT i) t
  end.
Definition option_rel {A B} (R : A -> B -> Prop) (a : option A) (b : option B) : Prop :=
  match a, b with Some x, Some y => R x y | None, None => True | _, _ => False end.

(** ** Nested association lists against histories *)
Section Nested.
  Context {A B : Type} (R : A -> B -> Prop).
  (** [stands k l h]: the assoc lists [l] are the open scopes after [h], of which [k] have been closed since *)
  Definition agrees (l : list (list (name * A))) (h : list (event B)) : Prop :=
    (depth h = Some (pred (length l))) /\ l <> [] /\
    forall k, (k < length l)%nat -> forall n,
      option_rel R (match assoc n (nth k l []) with Some a => Some a | None => None end)
                   (if declared_here k h n then visible k h n else None)
      /\ (declared_here k h n = match assoc n (nth k l []) with Some _ => true | None => false end).

  Lemma declared_visible k h n : declared_here k h n = true -> exists b : B, visible k h n = Some b.
  Proof.
    revert k. induction h as [| [| | m b] h IH]; intros k; cbn; try discriminate.
    - destruct k; [discriminate |]. apply IH.
    - apply IH.
    - destruct k; [| apply IH]. destruct (name_eqb m n); [eauto | apply IH].
  Qed.
  (** reading past the end of the open scope *)
  Lemma not_declared_visible k (h : list (event B)) n d : depth h = Some d -> (k < d)%nat ->
    declared_here k h n = false -> visible k h n = visible (S k) h n.
  Proof.
    revert k d. induction h as [| [| | m b] h IH]; intros k d; cbn.
    - intros E. injection E as <-. lia.
    - destruct (depth h) as [d' |] eqn:E; [| discriminate]. intros F Hk. injection F as <-.
      destruct k; cbn; [reflexivity |]. intros Hd. apply (IH k d'); auto. lia.
    - destruct (depth h) as [[| d'] |] eqn:E; try discriminate. intros F Hk. injection F as <-. intros Hd.
      apply (IH (S k) (S d')); auto. lia.
    - intros E Hk. destruct k; [| intros Hd; now apply (IH _ d)].
      destruct (name_eqb m n) eqn:En; [discriminate |]. intros Hd. now apply (IH 0%nat d).
  Qed.
  Lemma not_declared_top k (h : list (event B)) n d : depth h = Some d -> k = d ->
    declared_here k h n = false -> visible k h n = None.
  Proof.
    revert k d. induction h as [| [| | m b] h IH]; intros k d; cbn.
    - reflexivity.
    - destruct (depth h) as [d' |] eqn:E; [| discriminate]. intros F Hk. injection F as <-. subst k. cbn. now apply (IH _ d').
    - destruct (depth h) as [[| d'] |] eqn:E; try discriminate. intros F Hk. injection F as <-. subst k. now apply (IH _ (S d')).
    - intros E Hk. destruct k; [| intros Hd; now apply (IH _ d)].
      destruct (name_eqb m n); [discriminate |]. intros Hd. now apply (IH _ d).
  Qed.

  Fixpoint search (l : list (list (name * A))) (n : name) : option A :=
    match l with
    | [] => None
    | s :: r => match assoc n s with Some a => Some a | None => search r n end
    end.
  Lemma search_from l h n : agrees l h -> forall j, (j <= length l)%nat ->
    forall k, k = (length l - j)%nat -> option_rel R (search (skipn k l) n) (if (k <? length l)%nat then visible k h n else None).
  Proof.
    intros (Hd & Hne & HA). induction j as [| j IH]; intros Hj k Hk.
    - replace k with (length l) by lia. rewrite skipn_all, Nat.ltb_irrefl. exact I.
    - assert (Hlt : (k < length l)%nat) by lia. destruct (HA k Hlt n) as (H1 & H2).
      assert (E : skipn k l = nth k l [] :: skipn (S k) l).
      { clear - Hlt. revert k Hlt. induction l as [| x l IH]; intros k Hk; [cbn in Hk; lia |]. destruct k; [reflexivity |]. cbn in *. apply IH. lia. }
      rewrite E. cbn [search]. rewrite (proj2 (Nat.ltb_lt k (length l)) Hlt).
      destruct (assoc n (nth k l [])) as [a |] eqn:Ea.
      + rewrite H2 in H1. exact H1.
      + specialize (IH ltac:(lia) (S k) ltac:(lia)).
        destruct (S k <? length l)%nat eqn:El.
        * apply Nat.ltb_lt in El. rewrite (not_declared_visible k h n (pred (length l))); auto. lia.
        * apply Nat.ltb_ge in El. rewrite (not_declared_top k h n (pred (length l))); auto. lia.
  Qed.
  Lemma search_visible l h n : agrees l h -> option_rel R (search l n) (visible 0 h n).
  Proof.
    intros H. pose proof (search_from l h n H (length l) ltac:(lia) 0%nat ltac:(lia)) as X. cbn [skipn] in X.
    destruct H as (_ & Hne & _). destruct l; [congruence |]. exact X.
  Qed.

  Lemma agrees_start : agrees [[]] [].
  Proof.
    split; [reflexivity |]. split; [discriminate |]. intros k Hk n. cbn in Hk. replace k with 0%nat by lia. cbn. auto.
  Qed.
  Lemma agrees_enter l h : agrees l h -> agrees ([] :: l) (Enter :: h).
  Proof.
    intros (Hd & Hne & HA). split.
    - cbn. rewrite Hd. cbn. destruct l; [congruence | reflexivity].
    - split; [discriminate |]. intros [| k] Hk n; [cbn; auto |]. cbn. apply HA. cbn in Hk. lia.
  Qed.
  Lemma agrees_exit s l h : agrees (s :: l) h -> depth (Exit :: h) <> None -> agrees l (Exit :: h).
  Proof.
    intros (Hd & Hne & HA) HE. cbn in HE. rewrite Hd in HE. cbn in HE.
    split.
    - cbn. rewrite Hd. cbn. destruct (length l); [now exfalso | reflexivity].
    - split; [intros ->; now apply HE |]. intros k Hk n. cbn. apply (HA (S k)). cbn. lia.
  Qed.
  Lemma agrees_declare s l h n a b : agrees (s :: l) h -> assoc n s = None -> R a b ->
    agrees (((n, a) :: s) :: l) (Declare n b :: h).
  Proof.
    intros (Hd & Hne & HA) Hn HR. split; [exact Hd |]. split; [discriminate |]. intros [| k] Hk m; cbn.
    - destruct (name_eqb m n) eqn:E.
      + apply name_eqb_eq in E. subst m. rewrite (proj2 (name_eqb_eq n n) eq_refl). cbn. auto.
      + destruct (name_eqb n m) eqn:F; [apply name_eqb_eq in F; subst; rewrite (proj2 (name_eqb_eq m m) eq_refl) in E; discriminate |].
        cbn. apply (HA 0%nat). cbn. lia.
    - apply (HA (S k)). cbn in *. lia.
  Qed.
  Lemma agrees_here s l h n : agrees (s :: l) h -> declared_here 0 h n = match assoc n s with Some _ => true | None => false end.
  Proof. intros (_ & _ & HA). apply (HA 0%nat). cbn. lia. Qed.
End Nested.

Lemma sym_search_search t n : sym_search t n = search (List.map sc_map t) n.
Proof. induction t as [| s t IH]; [reflexivity |]. cbn. rewrite IH. reflexivity. Qed.
Lemma tag_search_search t n : tag_search t n = search t n.
Proof. induction t as [| s t IH]; [reflexivity |]. cbn. rewrite IH. reflexivity. Qed.

Lemma can_define_inv t n : sym_can_define t n = Ok true -> exists s r, t = s :: r /\ assoc n (sc_map s) = None.
Proof. destruct t as [| s r]; cbn; [discriminate |]. destruct (assoc n (sc_map s)) eqn:E; [discriminate |]. eauto. Qed.

Lemma runs_agree h t : runs new_symtab h t -> agrees declared_as (List.map sc_map t) h.
Proof.
  induction 1.
  - apply agrees_start.
  - cbn. now apply agrees_enter.
  - destruct t as [| s [| o r]]; cbn in H1; try discriminate.
    + injection H1 as <-. destruct IHruns as (Hd & _). cbn in H0. rewrite Hd in H0. cbn in H0. congruence.
    + injection H1 as <-. cbn in *. now apply agrees_exit with (s := sc_map s).
  - destruct (can_define_inv _ _ H0) as (s & r & -> & Hn). unfold sym_define_label in H1. rewrite H0 in H1. cbn in H1. injection H1 as <-.
    cbn in *. apply agrees_declare; auto. reflexivity.
  - destruct (can_define_inv _ _ H0) as (s & r & -> & Hn). unfold sym_define_memory in H1. rewrite H0 in H1. cbn in H1. injection H1 as <-.
    cbn in *. apply agrees_declare; auto. cbn. eauto.
  - destruct (can_define_inv _ _ H0) as (s & r & -> & Hn). unfold sym_define_integer in H1. rewrite H0 in H1. cbn in H1. injection H1 as <-.
    cbn in *. apply agrees_declare; auto. reflexivity.
Qed.

(** C21: lookup *)
Lemma symbol_lookup h t n : runs new_symtab h t -> option_rel declared_as (sym_search t n) (visible 0 h n).
Proof. intros H. rewrite sym_search_search. now apply search_visible, runs_agree. Qed.
(** C21: a second declaration in one scope *)
Lemma symbol_can_define h t n : runs new_symtab h t -> sym_can_define t n = Ok (negb (declared_here 0 h n)).
Proof.
  intros H. apply runs_agree in H. destruct t as [| s r]; [destruct H as (_ & H & _); cbn in H; congruence |].
  cbn in H. rewrite (agrees_here _ _ _ _ n H). cbn. destruct (assoc n (sc_map s)); reflexivity.
Qed.
Lemma symbol_redeclared h t n d i : runs new_symtab h t -> declared_here 0 h n = true ->
  sym_define_label t n d = Ok t /\ sym_define_memory t n d = Ok t /\ sym_define_integer t n d i = Ok t.
Proof.
  intros H D. pose proof (symbol_can_define h t n H) as C. rewrite D in C. cbn in C.
  unfold sym_define_label, sym_define_memory, sym_define_integer. rewrite C. destruct t; [discriminate |]. cbn. auto.
Qed.
(** C21: leaving a scope *)
Lemma visible_closed {A} (inner : list (event A)) h n : forall k, balanced k inner = true ->
  visible (S k) (inner ++ Enter :: h) n = visible 0 h n.
Proof.
  induction inner as [| [| | m a] r IH]; intros k H; cbn in *.
  - destruct k; [reflexivity | discriminate].
  - destruct k; [discriminate |]. now apply IH.
  - now apply IH.
  - now apply IH.
Qed.
Lemma visible_scope_left {A} (inner : list (event A)) h n : balanced 0 inner = true ->
  visible 0 (Exit :: inner ++ Enter :: h) n = visible 0 h n.
Proof. intros H. cbn. now apply visible_closed. Qed.
(** the very same symbols, offsets included *)
Lemma scope_runs t0 inner t : runs t0 inner t -> t0 <> [] -> forall k, depth inner = Some k ->
  exists ls x s r, List.map sc_map t0 = s :: r /\ List.map sc_map t = ls ++ (x ++ s) :: r /\ length ls = k.
Proof.
  intros H. induction H; intros Hne k Hk.
  - destruct t0 as [| s r]; [congruence |]. injection Hk as <-. exists [], [], (sc_map s), (List.map sc_map r). auto.
  - cbn in Hk. destruct (depth h) as [d |] eqn:E; [| discriminate]. injection Hk as <-.
    destruct (IHruns Hne d eq_refl) as (ls & x & s & r & H1 & H2 & H3). exists ([] :: ls), x, s, r. cbn. rewrite H2, H3. auto.
  - cbn in Hk. destruct (depth h) as [[| d] |] eqn:E; try discriminate. injection Hk as <-.
    destruct (IHruns Hne _ eq_refl) as (ls & x & s & r & H2 & H3 & H4).
    destruct ls as [| l ls]; [discriminate |]. destruct t as [| a [| b t]]; cbn in H1; try discriminate.
    + cbn in H3. injection H3 as _ H3. destruct ls; discriminate.
    + injection H1 as <-. cbn in H3. injection H3 as H3a H3. exists ls, x, s, r. cbn in *. split; [assumption |]. split; [assumption | lia].
  - destruct (IHruns Hne _ Hk) as (ls & x & s & r & H2 & H3 & H4). destruct (can_define_inv _ _ H0) as (a & b & -> & _).
    unfold sym_define_label in H1. rewrite H0 in H1. cbn in H1. injection H1 as <-. cbn in H3.
    destruct ls as [| l ls]; cbn in H3; injection H3 as H3a H3b.
    + exists [], ((n, mksym SYMBOL_LABEL d) :: x), s, r. cbn. rewrite H3a, H3b. auto.
    + exists (((n, mksym SYMBOL_LABEL d) :: l) :: ls), x, s, r. cbn. rewrite H3a, H3b. auto.
  - destruct (IHruns Hne _ Hk) as (ls & x & s & r & H2 & H3 & H4). destruct (can_define_inv _ _ H0) as (a & b & -> & _).
    unfold sym_define_memory in H1. rewrite H0 in H1. cbn in H1. injection H1 as <-. cbn in H3.
    destruct ls as [| l ls]; cbn in H3; injection H3 as H3a H3b.
    + eexists [], (_ :: x), s, r. cbn. rewrite H3a, H3b. auto.
    + eexists ((_ :: l) :: ls), x, s, r. cbn. rewrite H3a, H3b. auto.
  - destruct (IHruns Hne _ Hk) as (ls & x & s & r & H2 & H3 & H4). destruct (can_define_inv _ _ H0) as (a & b & -> & _).
    unfold sym_define_integer in H1. rewrite H0 in H1. cbn in H1. injection H1 as <-. cbn in H3.
    destruct ls as [| l ls]; cbn in H3; injection H3 as H3a H3b.
    + eexists [], (_ :: x), s, r. cbn. rewrite H3a, H3b. auto.
    + eexists ((_ :: l) :: ls), x, s, r. cbn. rewrite H3a, H3b. auto.
Qed.
Lemma scope_left t0 inner t1 t : runs (sym_enter t0) inner t1 -> depth inner = Some O -> sym_exit t1 = Ok t ->
  t0 <> [] -> forall n, sym_search t n = sym_search t0 n.
Proof.
  intros H D E Hne n. destruct (scope_runs _ _ _ H ltac:(discriminate) _ D) as (ls & x & s & r & H1 & H2 & H3).
  destruct ls; [| discriminate]. cbn in H1, H2. injection H1 as <- <-.
  destruct t1 as [| a [| b t1]]; cbn in E; try discriminate.
  - cbn in H2. injection H2 as _ H2. destruct t0; [congruence | discriminate].
  - injection E as <-. cbn in H2. injection H2 as _ H2. rewrite !sym_search_search. cbn. rewrite <- H2. reflexivity.
Qed.

(** ** Tags *)
Definition tag_declared_as (d : dtype) (m : list (name * dtype) + list (name * Z)) : Prop :=
  match m with
  | inl ms => exists members size align, d = DTYPE_USTRUCT members size align /\ List.map fst members = ms
  | inr ms => d = DTYPE_UENUM ms
  end.
Lemma layout_members_names ms : forall nb al r nb' al', layout_members ms nb al = Ok (r, nb', al') -> List.map fst r = ms.
Proof.
  induction ms as [| [n d] ms IH]; intros nb al r nb' al' H; cbn in H; [now injection H as <- _ _ |].
  destruct (min_multiple_of _ _); try discriminate. cbn in H. destruct (layout_members _ _ _) as [[[r' nb2] al2] | | | |] eqn:E; try discriminate.
  cbn in H. injection H as <- _ _. cbn. f_equal. eapply IH; eauto.
Qed.
Lemma new_struct_names ms d : new_unnamed_struct ms = Ok d -> exists members size align, d = DTYPE_USTRUCT members size align /\ List.map fst members = ms.
Proof.
  unfold new_unnamed_struct. destruct (layout_members ms 0 0) as [[[r nb] al] | | | |] eqn:E; try discriminate. cbn.
  destruct (min_multiple_of nb al); try discriminate. cbn. intros H. injection H as <-. eexists _, _, _. split; [reflexivity |]. eapply layout_members_names; eauto.
Qed.
Lemma tag_runs_agree h t : tag_runs h t -> agrees tag_declared_as t h.
Proof.
  induction 1.
  - apply agrees_start.
  - now apply agrees_enter.
  - destruct t as [| s r]; cbn in H1; try discriminate. injection H1 as <-. eapply agrees_exit; eauto.
  - unfold tag_define_struct in H1. rewrite H0 in H1. cbn in H1. destruct (new_unnamed_struct ms) eqn:E; try discriminate. cbn in H1. injection H1 as <-.
    destruct t as [| s r]; cbn in *; [discriminate |]. apply agrees_declare; auto; [now destruct (assoc n s) |]. cbn. now apply new_struct_names.
  - unfold tag_define_enum in H1. rewrite H0 in H1. cbn in H1. injection H1 as <-.
    destruct t as [| s r]; cbn in *; [discriminate |]. apply agrees_declare; auto; [now destruct (assoc n s) |]. reflexivity.
Qed.
Lemma tag_lookup h t n : tag_runs h t -> option_rel tag_declared_as (tag_search t n) (visible 0 h n).
Proof. intros H. rewrite tag_search_search. now apply search_visible, tag_runs_agree. Qed.
Lemma tag_redeclared h t n : tag_runs h t -> tag_can_define t n = Ok (negb (declared_here 0 h n)).
Proof.
  intros H. apply tag_runs_agree in H. destruct t as [| s r]; [destruct H as (_ & H & _); congruence |].
  rewrite (agrees_here _ _ _ _ n H). cbn. destruct (assoc n s); reflexivity.
Qed.

(** ** C22: stack slots *)
(** the slots given out along a history, the latest first: for each local object what the table answers
    right after its declaration *)
Inductive allocates (t0 : symtab) : list (event declaration) -> symtab -> list slot -> Prop :=
| allocates_start : allocates t0 [] t0 []
| allocates_enter h t l : allocates t0 h t l -> allocates t0 (Enter :: h) (sym_enter t) l
| allocates_exit h t t' l : allocates t0 h t l -> depth (Exit :: h) <> None -> sym_exit t = Ok t' -> allocates t0 (Exit :: h) t' l
| allocates_label h t n d t' l : allocates t0 h t l -> sym_define_label t n d = Ok t' -> allocates t0 (Declare n (DStatic d) :: h) t' l
| allocates_memory h t n d t' l off : allocates t0 h t l -> complete d -> sym_can_define t n = Ok true ->
    sym_define_memory t n d = Ok t' -> sym_search t' n = Some (mksym (SYMBOL_MEM off) d) ->
    allocates t0 (Declare n (DLocal d) :: h) t' (mkslot off (sizeof d) d :: l)
| allocates_integer h t n d i t' l : allocates t0 h t l -> sym_define_integer t n d i = Ok t' -> allocates t0 (Declare n (DConstant d i) :: h) t' l.
Definition frame_size (t : symtab) : Z := match t with [] => 0 | s :: _ => sc_nbytes s end.

Lemma stack_slots t0 h t l : allocates t0 h t l -> t0 <> [] -> frame_size t0 = 0 ->
  (t <> [] /\ 0 <= frame_size t) /\ (exists k, depth h = Some k /\ length t = (length t0 + k)%nat) /\
  Forall (slot_in_frame (frame_size t)) l /\ Forall (fun s => (4 | offset s)) l /\
  ForallOrdPairs slots_disjoint l.
Proof.
  intros H Hne H0. induction H.
  - split; [split; [assumption | lia] |]. split; [exists 0%nat; cbn; split; [reflexivity | lia] |]. repeat constructor.
  - destruct IHallocates as ((A & A') & (k & K1 & K2) & B & C & D).
    split; [split; [discriminate |] |]. { destruct t; [congruence | exact A']. }
    split; [exists (S k); cbn; rewrite K1; split; [reflexivity | lia] |].
    destruct t as [| s r]; [congruence |]. auto.
  - destruct IHallocates as ((A & A') & (k & K1 & K2) & B & C & D).
    cbn in H1. rewrite K1 in H1. destruct k as [| k]; [congruence |].
    destruct t as [| s [| o r]]; cbn in H2; try discriminate.
    + cbn in K2. destruct t0; [congruence | cbn in K2; lia].
    + injection H2 as <-. split; [split; [discriminate | exact A'] |].
      split; [exists k; cbn; rewrite K1; split; [reflexivity | cbn in K2; lia] |]. auto.
  - destruct IHallocates as ((A & A') & K & B & C & D). destruct t as [| s r]; [congruence |].
    assert (E : frame_size t' = frame_size (s :: r) /\ length t' = length (s :: r) /\ t' <> []).
    { unfold sym_define_label in H1. cbn in H1. destruct (assoc n (sc_map s)); cbn in H1; injection H1 as <-; auto using nil_cons; repeat split; discriminate. }
    destruct E as (-> & E2 & E3). cbn. rewrite E2. auto.
  - destruct IHallocates as ((A & A') & K & B & C & D). destruct t as [| s r]; [congruence |].
    unfold sym_define_memory in H3. rewrite H2 in H3. cbn [bind] in H3.
    destruct (complete_layout d H1) as (P1 & P2 & _). rewrite nbytes_sizeof in H3.
    cbn in A'. destruct (min_multiple (sc_nbytes s + sizeof d) 4 ltac:(lia) ltac:(lia)) as (nb & E & F & G). rewrite E in H3. cbn in H3. injection H3 as <-.
    cbn in H4. rewrite (proj2 (name_eqb_eq n n) eq_refl) in H4. injection H4 as <-. cbn.
    split; [split; [discriminate | lia] |]. split; [exact K |]. split; [| split].
    + constructor; [split; cbn; lia |]. eapply Forall_impl; [| exact B]. intros x (X1 & X2). split; [assumption |]. cbn in X2. lia.
    + constructor; assumption.
    + constructor; [| assumption]. eapply Forall_impl; [| exact B]. intros x (X1 & X2). left. cbn in *. lia.
  - destruct IHallocates as ((A & A') & K & B & C & D). destruct t as [| s r]; [congruence |].
    assert (E : frame_size t' = frame_size (s :: r) /\ length t' = length (s :: r) /\ t' <> []).
    { unfold sym_define_integer in H1. cbn in H1. destruct (assoc n (sc_map s)); cbn in H1; injection H1 as <-; repeat split; discriminate. }
    destruct E as (-> & E2 & E3). cbn. rewrite E2. auto.
Qed.
