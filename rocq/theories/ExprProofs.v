(** Tools for relating generated code to the C semantics: places in the code, values of C types *)
From Verif Require Import Base SrtModel ImmcModel ImmcgenModel X64Isa X64Decode OpSpec TypeSpec CSem ImmcSem GenSpec ElabProofs GenProofs IsaProofs LabelSpec.
Open Scope Z_scope.

Ltac splits := repeat match goal with |- _ /\ _ => split end.
(** * Values *)
Definition uns := dtype_isunsignedinteger.
Lemma size_eqb_refl s : size_eqb s s = true.
Proof. now destruct s. Qed.
Lemma size_eqb_eq a b : size_eqb a b = true -> a = b.
Proof. destruct a, b; intros H; try discriminate H; reflexivity. Qed.
Lemma alike_kind a b : alike (Some a) b = true ->
  exists d u s, b = Some d /\ kind a = Some (u, s) /\ kind d = Some (u, s) /\ pointer a = pointer d.
Proof.
  unfold alike. destruct b as [b |]; [| discriminate]. destruct (kind a) as [[u s] |], (kind b) as [[v t] |] eqn:Kb; try discriminate.
  intros H. apply andb_prop in H as [H H2]. apply andb_prop in H as [H1 H3]. apply eqb_prop in H1, H2. apply size_eqb_eq in H3. subst.
  exists b, v, t. repeat split; auto.
Qed.
Lemma uns_kind d u s : kind d = Some (u, s) -> pointer d = false -> uns d = u.
Proof. destruct d; cbn; intros H N; try discriminate H; try discriminate N; injection H as <- <-; reflexivity. Qed.
Lemma uns_pointer d : pointer d = true -> uns d = false.
Proof. destruct d; cbn; intros H; try discriminate H; reflexivity. Qed.
Lemma pointer_kind d : pointer d = true -> kind d = Some (true, S8).
Proof. destruct d; cbn; intros H; try discriminate H; reflexivity. Qed.
Lemma integer_pointer d : integer d = true -> pointer d = false.
Proof. destruct d; cbn; intros H; try discriminate H; reflexivity. Qed.
Lemma integer_kind d : integer d = true -> exists u s, kind d = Some (u, s).
Proof. destruct d; cbn; intros H; try discriminate H; eauto. Qed.
Lemma alike_uns a b d u s : alike (Some a) b = true -> b = Some d -> kind a = Some (u, s) -> uns a = uns d.
Proof.
  intros H -> K. apply alike_kind in H as (d' & u' & s' & E & K1 & K2 & PP). injection E as <-.
  destruct (pointer a) eqn:Pa.
  - rewrite (uns_pointer a), (uns_pointer d); auto.
  - rewrite (uns_kind _ _ _ K1), (uns_kind _ _ _ K2); auto.
Qed.
Lemma suffix_kind d u s : kind d = Some (u, s) -> suffix_size (immcsuffix_get (dtype_nbytes d)) = Some s.
Proof. destruct d; cbn; intros H; try discriminate H; injection H as <- <-; reflexivity. Qed.
Lemma kind_nbytes d u s : kind d = Some (u, s) -> dtype_nbytes d = size_bytes s.
Proof. destruct d; cbn; intros H; try discriminate H; injection H as <- <-; reflexivity. Qed.
Lemma nbits_64 s : nbits s <= 64.
Proof. destruct s; cbn; lia. Qed.

Lemma fit_low d u s x v : kind d = Some (u, s) -> fit d x = Ok v -> low s v = low s x /\ in_range u s v = true.
Proof.
  unfold fit. intros ->. destruct u.
  - intros H. injection H as <-. split; [apply low_low |]. unfold in_range. assert (R := low_range s x). lia.
  - destruct (in_range false s x) eqn:R; intros H; [| discriminate H]. injection H as <-. auto.
Qed.
Lemma convert_low d u s x v : kind d = Some (u, s) -> convert d x = Ok v -> low s v = low s x /\ in_range u s v = true.
Proof.
  intros K H. assert (E : convert d x = Ok (interp u s x)) by (unfold convert; destruct d; try discriminate K; rewrite K; reflexivity).
  rewrite E in H. injection H as <-. split; [apply low_interp | apply interp_in_range].
Qed.
Lemma low_in_range u s x y : low s x = low s y -> in_range u s y = true -> interp u s x = y.
Proof. intros L R. rewrite (interp_of_low u s x y L). now apply in_range_interp. Qed.
Lemma keeps_range a b u s v t x : kind a = Some (u, s) -> kind b = Some (v, t) -> keeps a b = true -> in_range u s x = true -> in_range v t x = true.
Proof.
  unfold keeps. intros -> ->. unfold in_range. destruct u, v; cbn [negb andb orb]; rewrite ?orb_false_r; intros K R; try discriminate K.
  - assert (nbits s <= nbits t) by lia. assert (2 ^ nbits s <= 2 ^ nbits t) by (apply Z.pow_le_mono_r; lia). lia.
  - assert (nbits s <= nbits t - 1) by lia. assert (2 ^ nbits s <= 2 ^ (nbits t - 1)) by (apply Z.pow_le_mono_r; lia). assert (0 < 2 ^ nbits s) by (apply pow_pos). lia.
  - assert (2 ^ (nbits s - 1) <= 2 ^ (nbits t - 1)) by (apply Z.pow_le_mono_r; lia). lia.
Qed.
Lemma advance_ok p k v : advance p k = Ok v -> v = p + k /\ 0 <= v < 2 ^ 64 /\ - 2 ^ 31 < k < 2 ^ 31.
Proof. unfold advance. destruct (_ && _) eqn:E; intros H; [| discriminate H]. injection H as <-. lia. Qed.

(** literals *)
Lemma low_wrapu64 s x : low s (wrapu 64 x) = low s x.
Proof. unfold low, wrapu. apply mod_mod_pow. assert (A := nbits_pos s). assert (B := nbits_64 s). lia. Qed.
Lemma low_wraps64 s x : low s (wraps 64 x) = low s x.
Proof.
  assert (A : low S8 (wraps 64 x) = low S8 x) by (apply low_signed).
  rewrite <- (low_low_le s S8 (wraps 64 x)), A, low_low_le; [reflexivity | |]; destruct s; cbn; lia.
Qed.
Lemma dtyped_unsigned d i : iliteral_isunsigned (create_dtyped_iliteral d i) = uns d.
Proof.
  unfold create_dtyped_iliteral, uns. destruct (dtype_isunsignedinteger d); unfold iliteral_isunsigned, iltype_isunsigned, iltype_get;
  destruct (dtype_scalar_rank d <? 3), (dtype_scalar_rank d =? 3); cbn; reflexivity.
Qed.
Lemma dtyped_value d i s : low s (lit_value (create_dtyped_iliteral d i)) = low s (lit_value i).
Proof.
  unfold lit_value. rewrite dtyped_unsigned. unfold create_dtyped_iliteral, uns. destruct (dtype_isunsignedinteger d); cbn;
  destruct (iliteral_isunsigned i); try reflexivity; [apply low_wrapu64 | apply low_wraps64].
Qed.

(** * Places in the code *)
Section Code.
Variables (call : caller) (lab : name -> option Z) (frame : Z) (params : list (size * Z)) (C : list immc).
Hypothesis NL : NoDup (labels C).
Notation go := (reaches call lab frame params C).
Notation step := (istep call lab frame params).

Definition code_at (p : nat) (cs : list immc) : Prop := exists pre post, C = pre ++ cs ++ post /\ length pre = p.
Lemma code_at_app p a b : code_at p (a ++ b) -> code_at p a /\ code_at (p + length a) b.
Proof.
  intros (pre & post & E & L). split; [exists pre, (b ++ post) | exists (pre ++ a), post].
  - now rewrite <- app_assoc in E.
  - split; [now rewrite E, <- !app_assoc | rewrite app_length; lia].
Qed.
Lemma code_at_cons p c cs : code_at p (c :: cs) -> nth_error C p = Some c /\ code_at (S p) cs.
Proof.
  intros H. split.
  - destruct H as (pre & post & -> & <-). rewrite nth_error_app2 by lia. now rewrite Nat.sub_diag.
  - apply (code_at_app p [c] cs) in H as [_ H]. cbn in H. now rewrite Nat.add_1_r in H.
Qed.
Lemma label_at_none n a : ~ In n (labels a) -> forall b, label_at n (a ++ b) = option_map (Nat.add (length a)) (label_at n b).
Proof.
  induction a as [| c a IH]; intros N b; cbn [app label_at].
  - cbn. now destruct (label_at n b).
  - assert (N' : ~ In n (labels a)) by (intros I; apply N; cbn; apply in_or_app; now right).
    destruct c as [t d f g | t i | t l | t v m]; cbn [length]; try (rewrite IH by exact N'; now destruct (label_at n b)).
    destruct (name_eqb n m) eqn:E.
    + exfalso. apply N. cbn. left. clear -E. symmetry. revert m E. induction n as [| x n IHn]; intros [| y m] E; cbn in E; try discriminate E; auto.
      apply andb_prop in E as [E1 E2]. apply Z.eqb_eq in E1. subst. f_equal. auto.
    + rewrite IH by exact N'. now destruct (label_at n b).
Qed.
Lemma name_eqb_refl n : name_eqb n n = true.
Proof. induction n; cbn; [reflexivity |]. now rewrite Z.eqb_refl. Qed.
Lemma label_here p t v n cs : code_at p (IMMC_LABEL t v n :: cs) -> label_at n C = Some p.
Proof.
  intros (pre & post & E & <-). rewrite E in *. rewrite label_at_none.
  - cbn. rewrite name_eqb_refl. cbn. now rewrite Nat.add_0_r.
  - intros I. unfold labels in NL. rewrite flat_map_app in NL. cbn in NL.
    apply NoDup_remove_2 in NL. apply NL. apply in_or_app. now left.
Qed.

Lemma go_refl p q : go p q p q.
Proof. constructor. Qed.
Lemma go_trans p q p1 q1 p2 q2 : go p q p1 q1 -> go p1 q1 p2 q2 -> go p q p2 q2.
Proof. induction 1 as [| ? ? ? ? ? ? M R IH]; [auto |]. intros H. econstructor; [exact M | auto]. Qed.
Lemma go_next p c cs q q' : code_at p (c :: cs) -> step c q = INext q' -> go p q (S p) q'.
Proof.
  intros A E. apply code_at_cons in A as [A _]. econstructor; [| constructor].
  unfold imove. rewrite A, E. reflexivity.
Qed.
Lemma go_jump p c cs q n q' k : code_at p (c :: cs) -> step c q = IGoto n q' -> label_at n C = Some k -> go p q k q'.
Proof.
  intros A E Lk. apply code_at_cons in A as [A _]. econstructor; [| constructor].
  unfold imove. rewrite A, E, Lk. reflexivity.
Qed.
Lemma go_label p t v n cs q : code_at p (IMMC_LABEL t v n :: cs) -> go p q (S p) q.
Proof. intros A. eapply go_next; [exact A | reflexivity]. Qed.
Lemma go_to p q k k' q' : go p q k q' -> k = k' -> go p q k' q'.
Proof. now intros H <-. Qed.
End Code.

(** * Registers *)
(** arguments, return value and the registers up to [n] are the same *)
Definition keep (n : Z) (q q' : istate) : Prop :=
  i_args q' = i_args q /\ i_ret q' = i_ret q /\ forall k, k <= n -> i_regs q' k = i_regs q k.
Lemma keep_refl n q : keep n q q.
Proof. now repeat split. Qed.
Lemma keep_trans n m a b c : keep n a b -> keep m b c -> n <= m -> keep n a c.
Proof. intros (A1 & A2 & A3) (B1 & B2 & B3) L. repeat split; try congruence. intros k K. rewrite B3 by lia. now apply A3. Qed.
Lemma keep_le n m a b : keep m a b -> n <= m -> keep n a b.
Proof. intros (A1 & A2 & A3) L. repeat split; auto. intros k K. apply A3. lia. Qed.
Lemma keep_set_reg n r s x q : n < r -> keep n q (set_reg r s x q).
Proof. intros L. repeat split. intros k K. cbn. unfold upd. destruct (k =? r) eqn:E; [lia | reflexivity]. Qed.
Lemma keep_set_world n W q : keep n q (set_world W q).
Proof. now repeat split. Qed.
Lemma set_reg_get r s x q : i_regs (set_reg r s x q) r = Some (s, x).
Proof. cbn. unfold upd. now rewrite Z.eqb_refl. Qed.

(** register [r], used with suffix [sf], has the value [v] of type [d] *)
Definition in_reg (q : istate) (d : dtype) (v : Z) (sf : suffix) (r : ireg) : Prop :=
  exists u s, kind d = Some (u, s) /\ suffix_size sf = Some s /\ reg_unsigned r = uns d /\ i_regs q (reg_id r) = Some (s, low s v).
(** so does the operand [o]; a register is between [n] and [n'] *)
Definition has (n n' : Z) (q : istate) (d : dtype) (v : Z) (o : ope) : Prop :=
  match o with
  | IMMC_OPERAND_REG sf r => n < reg_id r <= n' /\ in_reg q d v sf r
  | IMMC_OPERAND_INT sf i =>
      exists u s, kind d = Some (u, s) /\ suffix_size sf = Some s /\ iliteral_isunsigned i = uns d /\ low s (lit_value i) = low s v
  | _ => False
  end.
Lemma has_facts n n' q d v o : has n n' q d v o ->
  exists u s a, kind d = Some (u, s) /\ operand_size o = Some s /\ operand_unsigned o = uns d /\ ivalue q o = Some a /\ low s a = low s v.
Proof.
  destruct o; cbn; try contradiction.
  - intros (_ & u & z & K & S & U & R). exists u, z, (interp (reg_unsigned r) z (low z v)). rewrite S, R, size_eqb_refl. splits; auto.
    now rewrite low_interp, low_low.
  - intros (u & z & K & S & U & R). exists u, z, (lit_value i). auto.
Qed.
Lemma in_reg_keep n q q' d v sf r : keep n q q' -> reg_id r <= n -> in_reg q d v sf r -> in_reg q' d v sf r.
Proof. intros (_ & _ & A) L (u & s & K & S & U & R). exists u, s. now rewrite A. Qed.
Lemma has_keep n n' m q q' d v o : keep m q q' -> n' <= m -> has n n' q d v o -> has n m q' d v o.
Proof.
  intros A L. destruct o; cbn; try contradiction.
  - intros ([B1 B2] & H). split; [lia |]. eapply in_reg_keep; [exact A | lia | exact H].
  - auto.
Qed.
Lemma has_le n0 n n' m q d v o : n0 <= n -> n' <= m -> has n n' q d v o -> has n0 m q d v o.
Proof. intros L1 L2. destruct o; cbn; try contradiction; [intros ([? ?] & HH); split; [lia | exact HH] | auto]. Qed.

(** the operand the comparison of values of type [d] reads *)
Lemma has_interp n n' q d u s v o : has n n' q d v o -> kind d = Some (u, s) -> in_range u s v = true -> comparable d v = true ->
  exists a, ivalue q o = Some a /\ operand_size o = Some s /\ operand_unsigned o = uns d /\ low s a = low s v /\ interp (uns d) s a = v.
Proof.
  intros H K R Cm. apply has_facts in H as (u' & s' & a & K' & S & U & V & Lw). rewrite K in K'. injection K' as <- <-.
  exists a. splits; auto. destruct (pointer d) eqn:Pd.
  - rewrite (uns_pointer _ Pd). rewrite (pointer_kind _ Pd) in K. injection K as <- <-. apply low_in_range; [exact Lw |].
    unfold comparable in Cm. rewrite Pd in Cm. unfold in_range in *. cbn in *. lia.
  - rewrite (uns_kind _ _ _ K Pd). now apply low_in_range.
Qed.
