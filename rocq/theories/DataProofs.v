(** The contents of static objects *)
From Coq Require Import FMapPositive.
From Verif Require Import Base SrtModel ImmcModel ImmcgenModel X64Isa X64Decode OpSpec TypeSpec TypeProofs CSem CProgram ImmcSem GenSpec ElabProofs GenProofs IsaProofs IsaMemProofs ExprProofs ExprProofs2 StmtProofs StmtProofs2 InitProofs ImmcProgram ProgSpec.
Open Scope Z_scope.

(** * Bytes *)
Lemma add_same {A} k (v w : A) : forall m, PositiveMap.add k v (PositiveMap.add k w m) = PositiveMap.add k v m.
Proof. induction k as [k IH | k IH |]; intros [| l o r]; cbn; rewrite ?IH; reflexivity. Qed.
Lemma add_swap {A} k j (v w : A) : k <> j -> forall m, PositiveMap.add k v (PositiveMap.add j w m) = PositiveMap.add j w (PositiveMap.add k v m).
Proof. revert j. induction k as [k IH | k IH |]; intros [j | j |] N [| l o r]; cbn; rewrite ?(IH j) by congruence; congruence. Qed.
Lemma poke_same m a x y : poke (poke m a x) a y = poke m a y.
Proof. unfold poke. cbn. now rewrite add_same. Qed.
Lemma poke_swap m a b x y : 0 <= a -> 0 <= b -> a <> b -> poke (poke m a x) b y = poke (poke m b y) a x.
Proof. intros A B N. unfold poke. cbn. rewrite add_swap; [reflexivity |]. unfold cell. intros E. apply (f_equal Z.pos) in E. rewrite !Z2Pos.id in E by lia. lia. Qed.
Lemma poke_list_app : forall l m a k, poke_list m a (l ++ k) = poke_list (poke_list m a l) (a + Z.of_nat (length l)) k.
Proof.
  induction l as [| b l IH]; intros m a k; cbn [app poke_list length].
  - now rewrite Z.add_0_r.
  - rewrite IH. f_equal. lia.
Qed.
Lemma poke_list_poke : forall l m a b x, 0 <= a -> 0 <= b -> b < a \/ a + Z.of_nat (length l) <= b -> poke (poke_list m a l) b x = poke_list (poke m b x) a l.
Proof.
  induction l as [| c l IH]; intros m a b x A B D; cbn [poke_list length] in *; [reflexivity |]. rewrite IH by lia. f_equal. apply poke_swap; lia.
Qed.
Lemma poke_list_swap : forall k l m a b, 0 <= a -> 0 <= b -> a + Z.of_nat (length l) <= b \/ b + Z.of_nat (length k) <= a ->
  poke_list (poke_list m a l) b k = poke_list (poke_list m b k) a l.
Proof.
  induction k as [| c k IH]; intros l m a b A B D; cbn [poke_list length] in *; [reflexivity |].
  rewrite poke_list_poke by lia. apply IH; lia.
Qed.
Lemma poke_list_over : forall l k m a, 0 <= a -> length l = length k -> poke_list (poke_list m a l) a k = poke_list m a k.
Proof.
  induction l as [| b l IH]; intros [| c k] m a A L; try discriminate L; [reflexivity |]. cbn [poke_list] in *.
  rewrite poke_list_poke by lia. rewrite poke_same. apply IH; [lia | now injection L].
Qed.
Lemma zero_list : forall n m a, zero m a n = poke_list m a (repeat 0 n).
Proof. induction n as [| n IH]; intros m a; [reflexivity |]. cbn. apply IH. Qed.
Lemma store_bytes_list : forall n m a v, store_bytes m a n v = poke_list m a (le_bytes n v).
Proof. induction n as [| n IH]; intros m a v; [reflexivity |]. cbn. apply IH. Qed.
Lemma le_bytes_length n : forall v, length (le_bytes n v) = n.
Proof. induction n as [| n IH]; intros v; cbn; [reflexivity | now rewrite IH]. Qed.
Lemma le_bytes_mod : forall n v, le_bytes n (v mod 2 ^ (8 * Z.of_nat n)) = le_bytes n v.
Proof.
  induction n as [| n IH]; intros v; [reflexivity |]. cbn [le_bytes]. replace (2 ^ (8 * Z.of_nat (S n))) with (256 * 2 ^ (8 * Z.of_nat n)).
  2: { replace (8 * Z.of_nat (S n)) with (8 + 8 * Z.of_nat n) by lia. now rewrite Z.pow_add_r by lia. }
  assert (P := Z.pow_pos_nonneg 2 (8 * Z.of_nat n) ltac:(lia) ltac:(lia)). rewrite Z.rem_mul_r by lia. f_equal.
  - rewrite Z.mul_comm, Z_mod_plus_full. apply Z.mod_mod. lia.
  - rewrite <- (IH (v / 256)). f_equal. rewrite Z.mul_comm, Z.div_add by lia. rewrite Z.div_small by (apply Z.mod_pos_bound; lia). reflexivity.
Qed.
Lemma le_bytes_low z v w : low z v = low z w -> le_bytes (nbytes z) v = le_bytes (nbytes z) w.
Proof. intros H. rewrite <- (le_bytes_mod _ v), <- (le_bytes_mod _ w). f_equal. destruct z; exact H. Qed.
Lemma put_chars_list : forall l m a m', put_chars m a l = Some m' -> m' = poke_list m a (map (fun c => c mod 256) l).
Proof.
  induction l as [| c l IH]; intros m a m' H; cbn [put_chars map poke_list] in *; [now injection H |].
  unfold store in H. destruct (valid _ _ _); [| discriminate H]. exact (IH _ _ _ H).
Qed.

(** * Data *)
Fixpoint all_data (cs : list immc) : option (list Z) :=
  match cs with
  | [] => Some []
  | c :: r => match data_of c, all_data r with Some b, Some l => Some (b ++ l) | _, _ => None end
  end.
Lemma all_data_app : forall c1 c2 l1 l2, all_data c1 = Some l1 -> all_data c2 = Some l2 -> all_data (c1 ++ c2) = Some (l1 ++ l2).
Proof.
  induction c1 as [| c r IH]; intros c2 l1 l2 H1 H2; cbn [all_data app] in *; [now injection H1 as <- |].
  destruct (data_of c) as [b |]; [| discriminate H1]. destruct (all_data r) as [l |] eqn:E; [| discriminate H1]. injection H1 as <-.
  rewrite (IH _ _ _ eq_refl H2). now rewrite app_assoc.
Qed.
Lemma take_all : forall cs l r, all_data cs = Some l -> take_data (cs ++ r) = l ++ take_data r.
Proof.
  induction cs as [| c cs IH]; intros l r H; cbn [all_data take_data app] in *; [now injection H as <- |].
  destruct (data_of c) as [b |]; [| discriminate H]. destruct (all_data cs) as [k |] eqn:E; [| discriminate H]. injection H as <-.
  rewrite (IH _ _ eq_refl). now rewrite app_assoc.
Qed.

Definition puts (s : srt) (d : dtype) (T : tagtab) (l : list Z) : Prop :=
  Z.of_nat (length l) = sizeof d /\
  forall call P Sc a W W', places_ok P -> s_tags Sc = T -> 0 <= a -> initialise call P Sc s d a W = Ok W' ->
  forall m, w_mem W = poke_list m a (repeat 0 (length l)) -> W' = set_wmem W (poke_list m a l).
Lemma set_wmem_set W m m' : set_wmem (set_wmem W m) m' = set_wmem W m'.
Proof. reflexivity. Qed.
Lemma repeat_length_app (a b : nat) : repeat 0 (a + b) = repeat 0 a ++ repeat 0 b.
Proof. apply repeat_app. Qed.
(** the first part of some zero bytes *)
Lemma focus m a (l1 : list Z) k : 0 <= a -> poke_list m a (repeat 0 (length l1 + k)) = poke_list (poke_list m (a + Z.of_nat (length l1)) (repeat 0 k)) a (repeat 0 (length l1)).
Proof. intros A. rewrite repeat_app, poke_list_app, repeat_length. rewrite poke_list_swap; [reflexivity | lia.. |]. rewrite !repeat_length. lia. Qed.
Lemma unfocus m a (l1 : list Z) k : 0 <= a -> poke_list (poke_list m (a + Z.of_nat (length l1)) k) a l1 = poke_list m a (l1 ++ k).
Proof. intros A. rewrite poke_list_app. symmetry. apply poke_list_swap; lia. Qed.

Lemma elements_put call P Sc e : places_ok P -> forall cs ls, Forall2 (fun c l => puts c e (s_tags Sc) l) cs ls -> forall a W W' m, 0 <= a ->
  init_elements call P Sc e cs a W = Ok W' -> w_mem W = poke_list m a (repeat 0 (length (concat ls))) -> W' = set_wmem W (poke_list m a (concat ls)).
Proof.
  intros PP. induction 1 as [| c l cs ls [Hl Hc] F IH]; intros a W W' m A I M; cbn [init_elements concat] in *.
  - injection I as <-. cbn in M |- *. destruct W as [mm h o]. cbn in *. now subst.
  - apply bind_ok in I as (W1 & I1 & I). rewrite app_length, focus in M by exact A.
    assert (X := Hc _ _ _ _ _ _ PP eq_refl A I1 _ M). subst W1. rewrite <- Hl in I.
    assert (X := IH (a + Z.of_nat (length l)) _ W' (poke_list m a l) ltac:(lia) I). rewrite X.
    + rewrite set_wmem_set, poke_list_app. reflexivity.
    + cbn [w_mem set_wmem]. rewrite unfocus, poke_list_app by exact A. reflexivity.
Qed.
Fixpoint members_regular (T : tagtab) (size : Z) (l : list srt) (ms : list (name * dtype * Z)) (pos : Z) : bool :=
  match l, ms with
  | [], [] => pos <=? size
  | c :: r, (_, t, off) :: ms => (pos <=? off) && regular_static T c t && members_regular T size r ms (off + sizeof t)
  | _, _ => false
  end.
Definition regular_static' (T : tagtab) (cs : list srt) (d : dtype) : bool :=
  match d with
  | DTYPE_ARRAY e n => match is_string cs with Some l => Z.of_nat (length l) =? sizeof d | None => (Z.of_nat (length cs) =? n) && forallb (fun c => regular_static T c e) cs end
  | DTYPE_USTRUCT _ _ _ | DTYPE_NSTRUCT _ _ _ =>
      match struct_members T d, struct_size T d with
      | Some (((_, _, 0) :: _) as ms), Some nb => (nb =? sizeof d) && members_regular T (sizeof d) cs ms 0
      | _, _ => false
      end
  | _ => match cs with [e] => regular e && constant e | _ => false end
  end.
Lemma regular_static_eq T o p cs d : regular_static T (Srt SRT_INIT o p cs) d = regular_static' T cs d.
Proof.
  assert (B : forall size l ms pos, (fix members (l : list srt) (ms : list (name * dtype * Z)) (pos : Z) {struct l} : bool :=
     match l, ms with [], [] => pos <=? size | c :: r, (_, t, off) :: ms => (pos <=? off) && regular_static T c t && members r ms (off + sizeof t) | _, _ => false end) l ms pos = members_regular T size l ms pos).
  { intros size l. induction l as [| c r IH]; intros [| [[n t] off] ms] pos; try reflexivity. cbn [members_regular]. now rewrite IH. }
  cbn [regular_static]. unfold regular_static'. destruct d; try reflexivity.
  - cbn [is_string]. unfold is_string. destruct cs as [| c [| c' cs]]; try reflexivity; destruct c as [ct ? cp ?]; destruct ct; try reflexivity; destruct cp; reflexivity.
  - destruct (struct_members T _) as [[| [[nm0 t0] [| |]] ms] |]; try reflexivity. destruct (struct_size T _); [now rewrite B | reflexivity].
  - destruct (struct_members T _) as [[| [[nm0 t0] [| |]] ms] |]; try reflexivity. destruct (struct_size T _); [now rewrite B | reflexivity].
Qed.

Lemma constant_literal : forall e e0, constant e = true -> strip_casts e = Ok e0 -> srt_is e0 SRT_ILITERAL_EXPR = true.
Proof.
  fix IH 1. intros [t o p cs] e0 K S. destruct t; try discriminate K; cbn [constant strip_casts] in *.
  - destruct cs as [| c [| ? ?]]; try discriminate K. exact (IH c e0 K S).
  - injection S as <-. reflexivity.
Qed.
Lemma scalar_put o p cs d st c st' :
  gen_global_scalar_initializer d (Srt SRT_INIT o p cs) st = Ok (c, st') -> match cs with [e] => regular e && constant e | _ => false end = true ->
  (forall T call P Sc a W, s_tags Sc = T -> initialise call P Sc (Srt SRT_INIT o p cs) d a W = match cs with [e] => do _ <- check (alike (Some d) (srt_dtype e)); do (v, W) <- eval call P Sc e W; if in_space a (sizeof d) then store_as d a v W else UB | _ => Fatal end) ->
  kind d <> None ->
  st' = st /\ exists l, all_data c = Some l /\ puts (Srt SRT_INIT o p cs) d (g_tags st) l.
Proof.
  intros H R I K. destruct cs as [| e [| ? ?]]; try discriminate R. apply andb_prop in R as [R Rc]. unfold gen_global_scalar_initializer in H. cbn [gchild srt_children nth_error deref bind] in H.
  apply bind_ok in H as (e0 & S & H). apply bind_ok in H as (i & Hi & H). destruct (kind d) as [[u z] |] eqn:Kd; [| congruence]. clear K.
  assert (D : c = [new_int_data_immc (match z with S1 => IMMC_DATA_BYTE | S2 => IMMC_DATA_WORD | S4 => IMMC_DATA_LONG | S8 => IMMC_DATA_QUAD end) (create_dtyped_iliteral d i)] /\ st' = st).
  { destruct d; try discriminate Kd; injection Kd as <- <-; cbn in H; injection H as <- <-; auto. }
  destruct D as [-> ->]. clear H. split; [reflexivity |]. exists (le_bytes (nbytes z) (lit_value (create_dtyped_iliteral d i))). split; [destruct z; cbn [all_data data_of new_int_data_immc]; now rewrite app_nil_r |].
  split. { rewrite le_bytes_length. rewrite (kind_size _ _ _ Kd). now destruct z. }
  intros call P Sc a W W' PP T A H m M. rewrite (I _ _ _ _ _ _ T) in H. apply bind_ok in H as ([] & Al & H). apply check_ok in Al. apply bind_ok in H as ([v W1] & Ev & H). destruct (in_space _ _); [| discriminate H].
  unfold store_as in H. rewrite Kd in H. unfold store in H. destruct (valid _ _ _); [| discriminate H]. injection H as <-.
  assert (X : W1 = W /\ low z v = low z (lit_value (create_dtyped_iliteral d i))).
  { unfold alike in Al. destruct (srt_dtype e) as [de |] eqn:De; [| discriminate Al]. rewrite Kd in Al. destruct (kind de) as [[ue ze] |] eqn:Ke; [| discriminate Al]. apply andb_prop in Al as [Al _]. apply andb_prop in Al as [_ Al].
    assert (z = ze) by (destruct z, ze; (reflexivity || discriminate Al)). subst ze. rewrite dtyped_value. assert (Tl := constant_literal _ _ Rc S).
    destruct (srt_is e SRT_CAST_EXPR) eqn:Tc.
    - destruct (cast_value _ _ PP _ _ _ _ _ _ _ _ _ R Tc De Ke S Ev) as (v0 & d0 & u0 & s0 & E0 & D0 & K0 & L0 & N0).
      destruct (eval_literal _ _ _ _ _ _ _ E0 Tl) as (l & Ll & -> & ->). split; [reflexivity |]. rewrite L0. congruence.
    - apply (not_cast _ _ Tc) in S. subst e0.
      destruct (eval_literal _ _ _ _ _ _ _ Ev Tl) as (l & Ll & -> & ->). split; [reflexivity |]. congruence. }
  destruct X as [-> Lv]. rewrite M, store_bytes_list, poke_list_over; [| exact A | rewrite repeat_length, !le_bytes_length; reflexivity]. now rewrite (le_bytes_low _ _ _ Lv).
Qed.

Lemma elements_data f e T : (forall s st cs st', gen f (Some e) s st = Ok (cs, st') -> is_global st = true -> g_tags st = T -> regular_static T s e = true -> st' = st /\ exists l, all_data cs = Some l /\ puts s e T l) ->
  forall (n : nat) s i st cs st' , gen_elements (gen f) s e i n st = Ok (cs, st') -> is_global st = true -> g_tags st = T -> forallb (fun c => regular_static T c e) (skipn i (srt_children s)) = true ->
  n = length (skipn i (srt_children s)) ->
  st' = st /\ exists ls, all_data cs = Some (concat ls) /\ Forall2 (fun c l => puts c e T l) (skipn i (srt_children s)) ls.
Proof.
  intros X. induction n as [| n IH]; intros s i st cs st' H Gl Tg R L; cbn [gen_elements] in H.
  - injection H as <- <-. split; [reflexivity |]. exists []. split; [reflexivity |]. destruct (skipn i (srt_children s)); [constructor | discriminate L].
  - apply bind_ok in H as (c & Hc & H). apply bind_ok in H as ([c1 st1] & H1 & H). apply bind_ok in H as ([c2 st2] & H2 & H). injection H as <- <-.
    unfold gchild in Hc. apply deref_ok in Hc. assert (Sk : skipn i (srt_children s) = c :: skipn (S i) (srt_children s)).
    { clear -Hc. revert i Hc. induction (srt_children s) as [| x l IH]; intros [| i] Hc; try discriminate Hc; [now injection Hc as -> |]. exact (IH i Hc). }
    rewrite Sk in R, L |- *. cbn [forallb] in R. apply andb_prop in R as [R1 R2].
    destruct (X _ _ _ _ H1 Gl Tg R1) as (-> & l & D1 & P1). destruct (IH _ _ _ _ _ H2 Gl Tg R2) as (-> & ls & D2 & P2); [now injection L |].
    split; [reflexivity |]. exists (l :: ls). split; [cbn [concat]; now apply all_data_app | now constructor].
Qed.
Lemma concat_size e T : forall cs ls, Forall2 (fun c l => puts c e T l) cs ls -> Z.of_nat (length (concat ls)) = sizeof e * Z.of_nat (length cs).
Proof. induction 1 as [| c l cs ls [Hl _] F IH]; cbn [concat length]; [lia |]. rewrite app_length. lia. Qed.

Lemma all_data_pad k : 0 < k -> all_data (if k >? 0 then [new_int_data_immc IMMC_DATA_ZERO (new_signed IInt k)] else []) = Some (repeat 0 (Z.to_nat k)).
Proof. intros K. destruct (k >? 0) eqn:E; [| lia]. cbn. now rewrite app_nil_r. Qed.
Lemma all_data_pad' k : 0 <= k -> all_data (if k >? 0 then [new_int_data_immc IMMC_DATA_ZERO (new_signed IInt k)] else []) = Some (repeat 0 (Z.to_nat k)).
Proof. intros K. destruct (Z.eq_dec k 0) as [-> | N]; [reflexivity | apply all_data_pad; lia]. Qed.
Lemma members_end T size : forall cs ms pos, members_regular T size cs ms pos = true -> (forall c t, In c cs -> regular_static T c t = true -> 0 <= sizeof t) -> pos <= size.
Proof.
  induction cs as [| c cs IH]; intros [| [[n t] off] ms] pos H Sz; try discriminate H; cbn [members_regular] in H; [lia |].
  apply andb_prop in H as [H H2]. apply andb_prop in H as [H0 H1]. assert (0 <= sizeof t) by (eapply Sz; [now left | exact H1]).
  apply IH in H2; [lia |]. intros c' t' I. apply Sz. now right.
Qed.

Lemma members_data f T size : (forall s d st cs st', gen f (Some d) s st = Ok (cs, st') -> is_global st = true -> g_tags st = T -> regular_static T s d = true -> st' = st /\ exists l, all_data cs = Some l /\ puts s d T l) ->
  forall ms s i st cs st', gen_global_members (gen f) s size ms i st = Ok (cs, st') -> is_global st = true -> g_tags st = T ->
  forall n t off r pos, ms = (n, t, off) :: r -> members_regular T size (skipn i (srt_children s)) ms pos = true ->
  st' = st /\ exists l, all_data cs = Some l /\ Z.of_nat (length l) = size - off /\
    forall call P Sc a W W' m, places_ok P -> s_tags Sc = T -> 0 <= a + off -> init_members call P Sc a (skipn i (srt_children s)) ms W = Ok W' ->
    w_mem W = poke_list m (a + off) (repeat 0 (length l)) -> W' = set_wmem W (poke_list m (a + off) l).
Proof.
  intros X. induction ms as [| [[n0 t0] off0] ms IH]; intros s i st cs st' H Gl Tg n t off r pos Em R; [discriminate Em |]. injection Em as -> -> -> ->. rename r into ms.
  cbn [gen_global_members] in H. apply bind_ok in H as (c & Hc & H). apply bind_ok in H as ([c1 st1] & H1 & H). cbv zeta in H. apply bind_ok in H as ([c2 st2] & H2 & H). injection H as <- <-.
  unfold gchild in Hc. apply deref_ok in Hc. assert (Sk : skipn i (srt_children s) = c :: skipn (S i) (srt_children s)).
  { clear -Hc. revert i Hc. induction (srt_children s) as [| x l IH]; intros [| i] Hc; try discriminate Hc; [now injection Hc as -> |]. exact (IH i Hc). }
  rewrite Sk in R |- *. cbn [members_regular] in R. apply andb_prop in R as [R R2]. apply andb_prop in R as [R0 R1].
  destruct (X _ _ _ _ _ H1 Gl Tg R1) as (-> & l1 & D1 & L1 & P1). rewrite nbytes_sizeof.
  destruct ms as [| [[n2 t2] off2] ms].
  - cbn [gen_global_members] in H2. injection H2 as <- <-. split; [reflexivity |].
    destruct (skipn (S i) (srt_children s)) as [| ? ?]; [| discriminate R2]. cbn [members_regular] in R2.
    set (k := size - (off + sizeof t)). assert (Kp : 0 <= k) by (subst k; lia).
    exists (l1 ++ repeat 0 (Z.to_nat k)). split; [rewrite app_nil_r; apply all_data_app; [exact D1 | apply all_data_pad'; exact Kp] |].
    split. { rewrite app_length, repeat_length. subst k. lia. }
    intros call P Sc a W W' m PP Ts A I M. cbn [init_members] in I. apply bind_ok in I as (W1 & I1 & I). injection I as <-.
    rewrite app_length, repeat_length, focus in M by exact A. assert (Y := P1 _ _ _ _ _ _ PP Ts A I1 _ M). rewrite Y, unfocus by exact A. reflexivity.
  - assert (Q : off + sizeof t <= off2). { destruct (skipn (S i) (srt_children s)) as [| ? ?]; [discriminate R2 |]. cbn [members_regular] in R2. lia. }
    destruct (IH s (S i) _ _ _ H2 Gl Tg _ _ _ _ _ eq_refl R2) as (-> & l2 & D2 & L2 & P2). split; [reflexivity |].
    set (k := off2 - (off + sizeof t)). assert (Kp : 0 <= k) by (subst k; lia).
    exists (l1 ++ repeat 0 (Z.to_nat k) ++ l2). split; [apply all_data_app; [exact D1 | apply all_data_app; [apply all_data_pad'; exact Kp | exact D2]] |].
    split. { rewrite !app_length, repeat_length. subst k. lia. }
    intros call P Sc a W W' m PP Ts A I M. cbn [init_members] in I. apply bind_ok in I as (W1 & I1 & I).
    rewrite !app_length, repeat_length, focus in M by exact A. assert (Y := P1 _ _ _ _ _ _ PP Ts A I1 _ M). subst W1. rewrite unfocus in I by exact A.
    assert (Eo : a + off2 = a + off + Z.of_nat (length (l1 ++ repeat 0 (Z.to_nat k)))) by (rewrite app_length, repeat_length; subst k; lia).
    assert (Z2 := P2 _ _ _ a _ _ (poke_list m (a + off) (l1 ++ repeat 0 (Z.to_nat k))) PP Ts ltac:(lia) I). rewrite Z2.
    + rewrite set_wmem_set, app_assoc, (poke_list_app (l1 ++ _)), Eo. reflexivity.
    + cbn [w_mem set_wmem]. rewrite repeat_app, app_assoc, (poke_list_app (l1 ++ _)), Eo. reflexivity.
Qed.

Lemma static_data : forall f s d st cs st', gen f (Some d) s st = Ok (cs, st') -> is_global st = true -> regular_static (g_tags st) s d = true ->
  st' = st /\ exists l, all_data cs = Some l /\ puts s d (g_tags st) l.
Proof.
  induction f as [| f IH]; intros [t o p ch] d st cs st' H Gl R; [discriminate H |]. destruct t; try discriminate R. rewrite regular_static_eq in R. unfold regular_static' in R.
  cbn [gen] in H. unfold gen_body in H. cbn [srt_type] in H. unfold gen_initializer in H. cbn [deref bind] in H.
  destruct d as [ | | | | | | | | t | d n | nm nb al | ms nb al | nm | ms | ps t | t];
  try (rewrite Gl in H; eapply scalar_put; [exact H | exact R | intros; rewrite init_eq; reflexivity | discriminate]).
  - rewrite Gl in H. exfalso. unfold gen_global_scalar_initializer in H. cbn [gchild srt_children] in H. apply bind_ok in H as (c & _ & H). apply bind_ok in H as (e & _ & H). apply bind_ok in H as (i & _ & H). cbn in H. discriminate H.
  - unfold gen_array_initializer in H. apply bind_ok in H as (c & Hc & H). apply deref_ok in Hc. cbn [srt_children] in Hc. destruct ch as [| c0 ch]; [discriminate Hc |]. injection Hc as ->.
    destruct (srt_is c SRT_SLITERAL_EXPR) eqn:Is.
    + destruct c as [ct cd cp cc]. destruct ct; try discriminate Is. apply bind_ok in H as (l & Hl & H). rewrite Gl in H. injection H as <- <-. split; [reflexivity |].
      destruct (is_string (Srt SRT_SLITERAL_EXPR cd cp cc :: ch)) as [l' |] eqn:Es.
      2: { cbn [forallb regular_static] in R. rewrite Bool.andb_false_r in R. discriminate R. }
      assert (l' = l). { destruct cp; try discriminate Hl. injection Hl as <-. cbn in Es. destruct ch; [now injection Es | discriminate Es]. } subst l'.
      exists (map (fun c => c mod 256) l). split; [cbn; now rewrite app_nil_r |]. split; [rewrite map_length; lia |].
      intros call P Sc a W W' PP T A I m M. rewrite init_eq in I. unfold init' in I. rewrite Es in I. destruct (negb _); [discriminate I |]. rewrite R in I. destruct (put_chars _ _ _) as [m' |] eqn:Pc; [| discriminate I]. injection I as <-.
      apply put_chars_list in Pc. rewrite Pc, M, poke_list_over; [reflexivity | exact A | now rewrite repeat_length, map_length].
    + assert (Es : is_string (c :: ch) = None) by (destruct c as [ct cd cp cc]; destruct ct; try discriminate Is; reflexivity).
      rewrite Es in R. apply andb_prop in R as [Rn R]. apply Z.eqb_eq in Rn.
      destruct (elements_data f d (g_tags st)) with (n := Z.to_nat n) (s := Srt SRT_INIT o p (c :: ch)) (i := 0%nat) (st := st) (cs := cs) (st' := st') as (-> & ls & D & F); try assumption; try reflexivity.
      { intros s0 st0 cs0 st0' H0 G0 T0 R0. rewrite <- T0 in *. eapply IH; [exact H0 | exact G0 | exact R0]. }
      { cbn [srt_children skipn]. rewrite <- Rn, Nat2Z.id. reflexivity. }
      cbn [srt_children skipn] in F. split; [reflexivity |]. exists (concat ls). split; [exact D |]. split.
      { cbn [sizeof]. rewrite (concat_size _ _ _ _ F). congruence. }
      intros call P Sc a W W' PP T A I m M. rewrite init_eq in I. unfold init' in I. rewrite Es in I. apply Z.eqb_eq in Rn. rewrite Rn in I.
      rewrite <- T in F. eapply elements_put; [exact PP | exact F | exact A | exact I | exact M].
  - destruct (struct_members (g_tags st) (DTYPE_NSTRUCT nm nb al)) as [[| [[n0 t0] [| |]] ms] |] eqn:Sm; try discriminate R. cbn [struct_members struct_size] in Sm, R.
    apply bind_ok in H as (d' & Hd & H). apply deref_ok in Hd. rewrite Hd in Sm, R. unfold gen_struct_initializer in H. destruct d' as [ | | | | | | | | | | | ms' nb' al' | | | | ]; try discriminate Sm. injection Sm as ->. rewrite Gl in H.
    apply andb_prop in R as [Rn R]. apply Z.eqb_eq in Rn. rewrite <- Rn in R. cbn [sizeof] in Rn.
    destruct (members_data f (g_tags st) nb') with (ms := (n0, t0, 0) :: ms) (s := Srt SRT_INIT o p ch) (i := 0%nat) (st := st) (cs := cs) (st' := st') (n := n0) (t := t0) (off := 0) (r := ms) (pos := 0) as (-> & l & D & L & F); try assumption; try reflexivity.
    { intros s0 d0 st0 cs0 st0' H0 G0 T0 R0. rewrite <- T0 in *. eapply IH; [exact H0 | exact G0 | exact R0]. }
    split; [reflexivity |]. exists l. split; [exact D |]. split; [cbn [sizeof]; lia |].
    intros call P Sc a W W' PP T A I m M. rewrite init_eq in I. unfold init' in I. cbn [struct_members] in I. rewrite T, Hd in I. cbn [srt_children skipn] in F.
    specialize (F call P Sc a W W' m PP T). rewrite Z.add_0_r in F. exact (F A I M).
  - destruct ms as [| [[n0 t0] [| |]] ms]; try discriminate R. cbn [struct_members struct_size] in R. unfold gen_struct_initializer in H. rewrite Gl in H.
    apply andb_prop in R as [Rn R]. cbn [sizeof] in R.
    destruct (members_data f (g_tags st) nb) with (ms := (n0, t0, 0) :: ms) (s := Srt SRT_INIT o p ch) (i := 0%nat) (st := st) (cs := cs) (st' := st') (n := n0) (t := t0) (off := 0) (r := ms) (pos := 0) as (-> & l & D & L & F); try assumption; try reflexivity.
    { intros s0 d0 st0 cs0 st0' H0 G0 T0 R0. rewrite <- T0 in *. eapply IH; [exact H0 | exact G0 | exact R0]. }
    split; [reflexivity |]. exists l. split; [exact D |]. split; [cbn [sizeof]; lia |].
    intros call P Sc a W W' PP T A I m M. rewrite init_eq in I. unfold init' in I. cbn [struct_members] in I. cbn [srt_children skipn] in F.
    specialize (F call P Sc a W W' m PP T). rewrite Z.add_0_r in F. exact (F A I M).
  - rewrite Gl in H. exfalso. unfold gen_global_scalar_initializer in H. cbn [gchild srt_children] in H. apply bind_ok in H as (c & _ & H). apply bind_ok in H as (e & _ & H). apply bind_ok in H as (i & _ & H). cbn in H. discriminate H.
  - rewrite Gl in H. exfalso. unfold gen_global_scalar_initializer in H. cbn [gchild srt_children] in H. apply bind_ok in H as (c & _ & H). apply bind_ok in H as (e & _ & H). apply bind_ok in H as (i & _ & H). cbn in H. discriminate H.
Qed.
