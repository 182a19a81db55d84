(** Proofs for C48: the machine code of an instruction does what the instruction does *)
From Coq Require Import Lia ZifyBool.
From Verif Require Import Base ElabProofs ImmcModel X64Model X64genModel X64Decode OpSpec CSem ImmcSem IsaProofs IsaMemProofs X64genProofs X64genProofs2 X64genProofs3 X64genProofs4 X64genProofs5 RegSpec MarkSpec SimSpec X64Isa.
Local Open Scope Z_scope.
Ltac splits := repeat match goal with |- _ /\ _ => split end.

Lemma size_eqb_true a b : CSem.size_eqb a b = true -> a = b.
Proof. destruct a, b; (discriminate || reflexivity). Qed.
Lemma machine_reg_inj a b k : machine_reg a = Some k -> machine_reg b = Some k -> a = b.
Proof.
  assert (R : forall z, machine_reg z = None \/ (0 <= z < 8)) by (intros z; destruct z as [| p | p]; auto; try (right; lia); do 4 (destruct p as [p | p |]; auto; try (right; lia))).
  intros A B. destruct (R a) as [X | X]; [congruence |]. destruct (R b) as [Y | Y]; [congruence |].
  assert (Ka : a = 0 \/ a = 1 \/ a = 2 \/ a = 3 \/ a = 4 \/ a = 5 \/ a = 6 \/ a = 7) by lia. assert (Kb : b = 0 \/ b = 1 \/ b = 2 \/ b = 3 \/ b = 4 \/ b = 5 \/ b = 6 \/ b = 7) by lia.
  clear R X Y. destruct Ka as [-> | [-> | [-> | [-> | [-> | [-> | [-> | ->]]]]]]], Kb as [-> | [-> | [-> | [-> | [-> | [-> | [-> | ->]]]]]]]; cbn in A, B; congruence.
Qed.
Lemma machine_reg_some z : 0 <= z < 8 -> exists k, machine_reg z = Some k.
Proof. intros H. assert (K : z = 0 \/ z = 1 \/ z = 2 \/ z = 3 \/ z = 4 \/ z = 5 \/ z = 6 \/ z = 7) by lia. destruct K as [-> | [-> | [-> | [-> | [-> | [-> | [-> | ->]]]]]]]; eexists; reflexivity. Qed.
(** the registers kept by the code of all instructions *)
Definition kept_regs : list reg := [RSP; RBP; R12; R13; R14; R15].
Lemma machine_reg_kept z k : machine_reg z = Some k -> ~ In k (RAX :: RBX :: kept_regs).
Proof. intros H I. destruct z as [| p | p]; try discriminate H; [cbn in H; injection H as <-; cbn in I; intuition discriminate |]. do 4 (destruct p as [p | p |]; try discriminate H; try (cbn in H; injection H as <-; cbn in I; intuition discriminate)). Qed.
Lemma in_regs_of k l : In k (regs_of l) -> exists o, In o l /\ operand_reg o = Some k.
Proof. unfold regs_of. rewrite in_flat_map. intros (o & I & H). exists o. split; [exact I |]. destruct (operand_reg o); [destruct H as [-> | []]; reflexivity | destruct H]. Qed.
Lemma operand_reg_kept o k : operand_reg o = Some k -> ~ In k (RAX :: RBX :: kept_regs).
Proof. destruct o; try discriminate; cbn; apply machine_reg_kept. Qed.
Lemma low8 s a b : low S8 a = low S8 b -> low s a = low s b.
Proof. intros H. rewrite <- (low_low_le s S8 a), <- (low_low_le s S8 b), H; [reflexivity | destruct s; cbn; lia..]. Qed.
Lemma interp_low_inj u s a b : interp u s a = interp u s b -> low s a = low s b.
Proof. intros H. rewrite <- (low_interp u s a), <- (low_interp u s b). now rewrite H. Qed.

Section Sim.
Variables (place : Z -> Z) (call : caller) (lab : name -> option Z) (frame : Z) (params : list (size * Z)).
Notation istep := (istep call lab frame params).
Notation ivalue := (@ivalue).
Notation iaddress := (iaddress lab frame).

Definition ren (o : ope) : ope :=
  match o with
  | IMMC_OPERAND_REG s r => IMMC_OPERAND_REG s (mkireg (place (reg_id r)) (reg_unsigned r))
  | IMMC_OPERAND_PTR r => IMMC_OPERAND_PTR (mkireg (place (reg_id r)) (reg_unsigned r))
  | _ => o
  end.
Lemma renamed_some o : renamed_operand place (Some o) = Some (ren o).
Proof. destruct o; reflexivity. Qed.
Lemma ren_size o : operand_size (ren o) = operand_size o. Proof. destruct o; reflexivity. Qed.
Lemma ren_unsigned o : operand_unsigned (ren o) = operand_unsigned o. Proof. destruct o; reflexivity. Qed.
Lemma ren_common f g : common (ren f) (ren g) = common f g. Proof. unfold common. now rewrite !ren_size. Qed.

(** * Agreement of states *)
Record agree (q : istate) (m : state) : Prop := {
  ag_frame : rget (regs m) RBP = frame;
  ag_seen : seen_in (w_mem (i_world q)) (mem m);
  ag_bytes : byte_memory (mem m) }.
Definition has (q : istate) (m : state) (r : Z) : Prop :=
  forall s x, i_regs q r = Some (s, x) -> exists k, machine_reg (place r) = Some k /\ low s (rget (regs m) k) = x.
Record moved (q : istate) (m : state) (q' : istate) (m' : state) (st' : xst) : Prop := {
  mv_agree : agree q' m';
  mv_kept : forall k, In k kept_regs -> rget (regs m') k = rget (regs m) k;
  mv_bx : rget (regs m') RBX = rget (regs m) RBX \/ 1 <= x_evac st';
  mv_mem : forall a, 0 <= a -> ~ accessible (w_mem (i_world q)) a 1 -> peek (mem m') a = peek (mem m) a;
  mv_world : regions (w_mem (i_world q')) = regions (w_mem (i_world q));
  mv_regions : regions (mem m') = regions (mem m) }.
(** the instruction [c] generated in the state [st], with the registers live before and after it *)
Record spot (Lp L' : Z -> Prop) (after : list immc) (st : xst) (c : immc) : Prop := {
  sp_reads : forall r, In r (reads c) -> Lp r;
  sp_apart : forall r r', Lp r -> Lp r' -> r <> r' -> place r <> place r';
  sp_before : forall r, L' r -> writes c <> Some r -> Lp r;
  sp_kept : forall r w, L' r -> writes c = Some w -> w <> r -> place w <> place r;
  sp_marked : forall r, L' r -> writes c <> Some r -> live_after st (Z.to_nat (place r)) /\ 0 <= place r;
  sp_later : forall r, L' r -> ~ not_read r after }.

Lemma value_ok q m o v : ivalue q o = Some v -> (forall r, In r (operand_register (Some o)) -> has q m r) -> value m (ren o) = Some v.
Proof.
  destruct o as [| s r | | | | s i |]; try discriminate; cbn; intros H V; [| exact H].
  destruct (suffix_size s) as [z |]; [| discriminate H]. destruct (i_regs q (reg_id r)) as [[z' x] |] eqn:R; [| discriminate H]. destruct (CSem.size_eqb z z') eqn:Z0; [| discriminate H]. apply size_eqb_true in Z0. subst z'. injection H as <-.
  destruct (V _ (or_introl eq_refl) _ _ R) as (k & K & Lk). rewrite K. f_equal. subst x. now rewrite interp_low.
Qed.
Lemma location_ok q m o a : agree q m -> iaddress q o = Some a -> (forall r, In r (operand_register (Some o)) -> has q m r) -> location lab m (ren o) = Some a.
Proof.
  intros A. destruct o as [| | r | z | n | |]; try discriminate; cbn; intros H V.
  - destruct (i_regs q (reg_id r)) as [[[] x] |] eqn:R; try discriminate H. injection H as <-. destruct (V _ (or_introl eq_refl) _ _ R) as (k & K & Lk). rewrite K. now rewrite Lk.
  - change (Some (low S8 (rget (regs m) RBP - z)) = Some a). rewrite (ag_frame _ _ A). exact H.
  - exact H.
Qed.
(** a register of which the operand is preserved *)
Lemma value_kept q m m' s r v z x k : ivalue q (IMMC_OPERAND_REG s r) = Some v -> i_regs q (reg_id r) = Some (z, x) -> machine_reg (place (reg_id r)) = Some k ->
  value m' (ren (IMMC_OPERAND_REG s r)) = value m (ren (IMMC_OPERAND_REG s r)) -> low z (rget (regs m') k) = low z (rget (regs m) k).
Proof.
  cbn. intros H R K V. rewrite R in H. destruct (suffix_size s) as [y |]; [| discriminate H]. destruct (CSem.size_eqb y z) eqn:Z0; [| discriminate H]. apply size_eqb_true in Z0. subst y. rewrite K in V. injection V as V. eapply interp_low_inj, V.
Qed.
Lemma has_other q m m' r : has q m r -> (forall s x k, i_regs q r = Some (s, x) -> machine_reg (place r) = Some k -> low s (rget (regs m') k) = low s (rget (regs m) k)) -> has q m' r.
Proof. intros H K s x E. destruct (H _ _ E) as (k & Mk & L). exists k. split; [exact Mk |]. now rewrite (K _ _ _ E Mk). Qed.

(** * The registers after an instruction with a result *)
Section Result.
Variables (Lp L' : Z -> Prop) (after : list immc) (st : xst) (t : insttype) (sd : suffix) (rd : ireg) (f : ope) (g : option ope).
Variables (q : istate) (m m' : state) (zd : size) (x : Z) (extra : list reg).
Let d := IMMC_OPERAND_REG sd rd.
Let c := IMMC_INST t (Some d) (Some f) g.
Hypothesis Spot : spot Lp L' after st c.
Hypothesis Has : forall r, Lp r -> has q m r.
Hypothesis Size : suffix_size sd = Some zd.
Hypothesis Res : exists k, machine_reg (place (reg_id rd)) = Some k /\ low zd (rget (regs m') k) = x.
Hypothesis Ch : forall k, ~ In k (extra ++ regs_of (ren d :: ren f :: match g with Some g => [ren g] | None => [] end)) -> rget (regs m') k = rget (regs m) k.
Hypothesis Ext : forall r k, L' r -> r <> reg_id rd -> machine_reg (place r) = Some k -> In k extra -> low S8 (rget (regs m') k) = low S8 (rget (regs m) k).
Hypothesis First : forall r, L' r -> r <> reg_id rd -> ~ In r (operand_register (Some f)).
Hypothesis Second : forall r k z y, L' r -> r <> reg_id rd -> machine_reg (place r) = Some k -> i_regs q r = Some (z, y) -> In r (operand_register g) -> ~ In k extra -> ~ In r (operand_register (Some f)) -> low z (rget (regs m') k) = low z (rget (regs m) k).
Lemma result_has : forall r, L' r -> has (set_reg (reg_id rd) zd x q) m' r.
Proof.
  intros r Lr. destruct (Z.eq_dec r (reg_id rd)) as [E | N].
  - subst r. intros s y E. cbn in E. unfold upd in E. rewrite Z.eqb_refl in E. injection E as <- <-. exact Res.
  - assert (W : writes c <> Some r) by (cbn; congruence). assert (Bp := sp_before _ _ _ _ _ Spot _ Lr W). assert (H := Has _ Bp).
    intros s y E. cbn in E. unfold upd in E. destruct (Z.eqb_spec r (reg_id rd)); [contradiction |]. destruct (H _ _ E) as (k & Mk & Lk). exists k. split; [exact Mk |]. rewrite <- Lk.
    destruct (in_dec reg_dec k extra) as [I | NI]; [apply low8; eauto |].
    destruct (in_dec Z.eq_dec r (operand_register g)) as [I | NG]; [apply (Second r k s y); auto |].
    rewrite Ch; [reflexivity |]. intros I. apply in_app_iff in I as [I | I]; [contradiction |]. apply in_regs_of in I as (o & [<- | [<- | I]] & O).
    + cbn in O. apply (sp_kept _ _ _ _ _ Spot r (reg_id rd) Lr eq_refl); [congruence |]. eapply machine_reg_inj; eassumption.
    + assert (F : forall rf, operand_register (Some f) = [rf] -> machine_reg (place rf) = Some k -> False).
      { intros rf Ef Mf. assert (Nf : r <> rf) by (intros ->; apply (First rf Lr N); rewrite Ef; now left). assert (Lf : Lp rf) by (apply (sp_reads _ _ _ _ _ Spot); cbn; rewrite !in_app_iff; left; change (In rf (operand_register (Some f))); rewrite Ef; now left). apply (sp_apart _ _ _ _ _ Spot r rf Bp Lf Nf). eapply machine_reg_inj; eassumption. }
      destruct f; try discriminate O; (eapply F; [reflexivity | exact O]).
    + destruct g as [g0 |]; [| destruct I]. destruct I as [<- | []].
      assert (F : forall rf, operand_register (Some g0) = [rf] -> machine_reg (place rf) = Some k -> False).
      { intros rf Ef Mf. assert (Nf : r <> rf) by (intros ->; apply NG; rewrite Ef; now left). assert (Lf : Lp rf) by (apply (sp_reads _ _ _ _ _ Spot); cbn; rewrite !in_app_iff; right; left; change (In rf (operand_register (Some g0))); rewrite Ef; now left). apply (sp_apart _ _ _ _ _ Spot r rf Bp Lf Nf). eapply machine_reg_inj; eassumption. }
      destruct g0; try discriminate O; (eapply F; [reflexivity | exact O]).
Qed.
End Result.

Lemma result_low m' sd rd zd y : suffix_size sd = Some zd -> value m' (ren (IMMC_OPERAND_REG sd rd)) = Some (interp (reg_unsigned rd) zd y) ->
  exists k, machine_reg (place (reg_id rd)) = Some k /\ low zd (rget (regs m') k) = low zd y.
Proof. cbn. intros -> H. destruct (machine_reg _) as [k |]; [| discriminate H]. injection H as H. exists k. split; [reflexivity | eapply interp_low_inj, H]. Qed.
Lemma moved_regs q m q' m' st' l : agree q m -> changes_only l m m' -> (forall k, In k l -> ~ In k kept_regs) -> rget (regs m') RBX = rget (regs m) RBX \/ 1 <= x_evac st' -> i_world q' = i_world q -> moved q m q' m' st'.
Proof.
  intros A [M C] K B W. assert (Ke : forall k, In k kept_regs -> rget (regs m') k = rget (regs m) k) by (intros k I; apply C; intros J; exact (K _ J I)).
  constructor; rewrite ?W, ?M; auto. destruct A as [A1 A2 A3]. constructor; [rewrite Ke by (cbn; auto); exact A1 | now rewrite W, M | now rewrite M].
Qed.
Lemma kept_list l : (forall k, In k l -> In k [RAX; RDX; R10; RBX]) -> forall os k, In k (l ++ regs_of os) -> ~ In k kept_regs.
Proof.
  intros H os k I J. apply in_app_iff in I as [I | I]; [apply H in I; cbn in I, J; intuition congruence |]. apply in_regs_of in I as (o & _ & O). apply operand_reg_kept in O. apply O. now do 2 right.
Qed.
Lemma bx_list l os : ~ In RBX l -> ~ In RBX (l ++ regs_of os).
Proof. intros N I. apply in_app_iff in I as [I | I]; [contradiction |]. apply in_regs_of in I as (o & _ & O). apply operand_reg_kept in O. apply O. right. now left. Qed.
Lemma first_used Lp L' after st t d f g rd sd : d = IMMC_OPERAND_REG sd rd -> is_register f -> spot Lp L' after st (IMMC_INST t (Some d) (Some f) g) -> used_up (IMMC_INST t (Some d) (Some f) g) after -> forall r, L' r -> r <> reg_id rd -> ~ In r (operand_register (Some f)).
Proof. intros -> F S U r Lr N I. destruct f; try contradiction. destruct I as [<- | []]. cbn in U. destruct U as [U | U]; [injection U as U; congruence | exact (sp_later _ _ _ _ _ S _ Lr U)]. Qed.
Lemma ren_is_register o : is_register (ren o) -> exists s r, o = IMMC_OPERAND_REG s r.
Proof. destruct o; try contradiction. eauto. Qed.
Lemma machine_live Lp L' after st c r k : spot Lp L' after st c -> L' r -> writes c <> Some r -> machine_reg (place r) = Some k -> k = RDX -> live_after st 1.
Proof. intros S Lr W M ->. destruct (sp_marked _ _ _ _ _ S _ Lr W) as [La _]. assert (place r = 1) as E by (eapply machine_reg_inj; [exact M | reflexivity]). rewrite E in La. exact La. Qed.

Definition sim_ok (L' : Z -> Prop) (cs : list x64) (st' : xst) (q : istate) (m : state) (q' : istate) : Prop :=
  exists m', runs lab cs m (Next m') /\ moved q m q' m' st' /\ (forall r, L' r -> has q' m' r) /\ i_ret q' = i_ret q.

Section Ops.
Variables (Lp L' : Z -> Prop) (after : list immc) (st : xst) (cs : list x64) (st' : xst) (q : istate) (m : state) (q' : istate).
Hypothesis Has : forall r, Lp r -> has q m r.
Hypothesis Ag : agree q m.
Lemma value_here t d f g o v : spot Lp L' after st (IMMC_INST t d f g) -> Some o = f \/ Some o = g -> ivalue q o = Some v -> value m (ren o) = Some v.
Proof. intros S E V. apply (value_ok q); [exact V |]. intros r I. apply Has, (sp_reads _ _ _ _ _ S). cbn. rewrite !in_app_iff. destruct E as [<- | <-]; auto. Qed.
Lemma binary_sim t d f g : In t [IMMC_INST_ADD; IMMC_INST_SUB; IMMC_INST_MUL; IMMC_INST_AND; IMMC_INST_OR; IMMC_INST_XOR] -> spot Lp L' after st (IMMC_INST t (Some d) (Some f) (Some g)) ->
  (exists s, sources (ren f) (ren g) s /\ destination (ren d) s /\ (t = IMMC_INST_MUL -> s <> S1 /\ accumulator_free (ren f) (ren g))) -> used_up (IMMC_INST t (Some d) (Some f) (Some g)) after ->
  gen_inst_x64code (IMMC_INST t (Some (ren d)) (Some (ren f)) (Some (ren g))) st = Ok (cs, st') -> istep (IMMC_INST t (Some d) (Some f) (Some g)) q = INext q' -> sim_ok L' cs st' q m q'.
Proof.
  intros T Sp (s & So & De & Mu) U G H.
  assert (H' : match common f g, ivalue q f, ivalue q g with Some s, Some a, Some b => match binop t (operand_unsigned d) s a b with Some r => put_result d (interp (operand_unsigned d) s r) q | None => IStuck end | _, _, _ => IStuck end = INext q')
    by (cbn in T; destruct T as [<- | [<- | [<- | [<- | [<- | [<- | []]]]]]]; exact H).
  clear H. destruct (ren_is_register _ (proj1 De)) as (sd & rd & ->). destruct (ren_is_register _ (proj1 So)) as (sf & rf & ->). destruct So as (S1' & S2' & S3 & S4').
  assert (S3' := S3). rewrite ren_common in S3'. rewrite S3' in H'. destruct (ivalue q (IMMC_OPERAND_REG sf rf)) as [a |] eqn:Va; [| discriminate H']. destruct (ivalue q g) as [b |] eqn:Vb; [| discriminate H'].
  destruct (binop t (operand_unsigned (IMMC_OPERAND_REG sd rd)) s a b) as [r |] eqn:Bi; [| discriminate H']. cbn [put_result] in H'. destruct (suffix_size sd) as [zd |] eqn:Zd; [| discriminate H']. injection H' as <-.
  destruct (binary_correct _ _ _ _ _ _ _ lab m s a b r T G (conj S1' (conj S2' (conj S3 S4'))) De Mu (value_here _ _ _ _ _ _ Sp (or_introl eq_refl) Va) (value_here _ _ _ _ _ _ Sp (or_intror eq_refl) Vb) Bi) as (m' & R & V & C & Vg).
  exists m'. split; [exact R |]. split; [| split; [| reflexivity]].
  - apply (moved_regs q m _ m' st' ([RAX] ++ regs_of [ren (IMMC_OPERAND_REG sd rd); ren (IMMC_OPERAND_REG sf rf); ren g])); auto; [apply kept_list; cbn; tauto |]. left. apply C. apply (bx_list [RAX]). cbn. intuition discriminate.
  - unfold result_in in V. cbn [ren operand_size operand_unsigned reg_unsigned] in V. rewrite Zd in V. destruct (result_low m' sd rd zd _ Zd V) as (k & Mk & Lk).
    eapply (result_has Lp L' after st t sd rd (IMMC_OPERAND_REG sf rf) (Some g) q m m' zd _ [RAX] Sp Has); [exists k; split; [exact Mk | exact Lk] | exact (proj2 C) | | eapply first_used; [reflexivity | exact Logic.I | exact Sp | exact U] |].
    + intros r0 k0 _ _ M0 [<- | []]. apply machine_reg_kept in M0. exfalso. apply M0. now left.
    + intros r0 k0 z y L0 N0 M0 E0 I0 _ NF. destruct g as [| sg rg | | | | |]; try contradiction; try (destruct I0; fail). destruct I0 as [<- | []].
      eapply value_kept; [exact Vb | exact E0 | exact M0 |]. apply Vg. cbn [operand_reg ren reg_id]. rewrite M0. assert (W : writes (IMMC_INST t (Some (IMMC_OPERAND_REG sd rd)) (Some (IMMC_OPERAND_REG sf rf)) (Some (IMMC_OPERAND_REG sg rg))) <> Some (reg_id rg)) by (cbn; congruence).
      intros [X | [X | [X | []]]]; [discriminate X | |].
      * apply (sp_kept _ _ _ _ _ Sp _ (reg_id rd) L0 eq_refl); [congruence |]. eapply machine_reg_inj; eassumption.
      * apply (sp_apart _ _ _ _ _ Sp (reg_id rg) (reg_id rf)); [exact (sp_before _ _ _ _ _ Sp _ L0 W) | apply (sp_reads _ _ _ _ _ Sp); cbn; now left | intros Q; apply NF; left; congruence | eapply machine_reg_inj; eassumption].
Qed.
Lemma second_other t sd rd f g r k : spot Lp L' after st (IMMC_INST t (Some (IMMC_OPERAND_REG sd rd)) (Some f) (Some g)) -> L' r -> r <> reg_id rd -> ~ In r (operand_register (Some f)) -> machine_reg (place r) = Some k ->
  operand_reg (ren (IMMC_OPERAND_REG sd rd)) <> Some k /\ operand_reg (ren f) <> Some k.
Proof.
  intros Sp Lr N NF Mk. assert (W : writes (IMMC_INST t (Some (IMMC_OPERAND_REG sd rd)) (Some f) (Some g)) <> Some r) by (cbn; congruence). split.
  - cbn. intros X. apply (sp_kept _ _ _ _ _ Sp _ (reg_id rd) Lr eq_refl); [congruence |]. eapply machine_reg_inj; eassumption.
  - assert (F : forall rf, operand_register (Some f) = [rf] -> machine_reg (place rf) = Some k -> False).
    { intros rf Ef Mf. assert (Nf : r <> rf) by (intros ->; apply NF; rewrite Ef; now left). apply (sp_apart _ _ _ _ _ Sp r rf (sp_before _ _ _ _ _ Sp _ Lr W)); [apply (sp_reads _ _ _ _ _ Sp); cbn; rewrite !in_app_iff; left; change (In rf (operand_register (Some f))); rewrite Ef; now left | exact Nf | eapply machine_reg_inj; eassumption]. }
    intros O. destruct f; try discriminate O; (eapply F; [reflexivity | exact O]).
Qed.
Lemma division_sim t d f g : In t [IMMC_INST_DIV; IMMC_INST_MOD] -> spot Lp L' after st (IMMC_INST t (Some d) (Some f) (Some g)) ->
  (exists s, sources (ren f) (ren g) s /\ destination (ren d) s /\ s <> S1 /\ loadable (ren g) s) -> accumulator_free (ren f) (ren g) -> ~ (in_dx (ren f) /\ in_dx (ren g)) -> (is_register (ren g) \/ not_read 6 (List.map (renamed place) after)) ->
  used_up (IMMC_INST t (Some d) (Some f) (Some g)) after ->
  gen_inst_x64code (IMMC_INST t (Some (ren d)) (Some (ren f)) (Some (ren g))) st = Ok (cs, st') -> istep (IMMC_INST t (Some d) (Some f) (Some g)) q = INext q' -> sim_ok L' cs st' q m q'.
Proof.
  intros T Sp (s & So & De & Ns & Lo) Af Dx Ten U G H.
  assert (H' : match common f g, ivalue q f, ivalue q g with Some s, Some a, Some b => match binop t (operand_unsigned d) s a b with Some r => put_result d (interp (operand_unsigned d) s r) q | None => IStuck end | _, _, _ => IStuck end = INext q')
    by (cbn in T; destruct T as [<- | [<- | []]]; exact H).
  clear H. destruct (ren_is_register _ (proj1 De)) as (sd & rd & ->). destruct (ren_is_register _ (proj1 So)) as (sf & rf & ->). assert (S3 := proj1 (proj2 (proj2 So))). rewrite ren_common in S3. rewrite S3 in H'.
  destruct (ivalue q (IMMC_OPERAND_REG sf rf)) as [a |] eqn:Va; [| discriminate H']. destruct (ivalue q g) as [b |] eqn:Vb; [| discriminate H'].
  destruct (binop t (operand_unsigned (IMMC_OPERAND_REG sd rd)) s a b) as [r |] eqn:Bi; [| discriminate H']. cbn [put_result] in H'. destruct (suffix_size sd) as [zd |] eqn:Zd; [| discriminate H']. injection H' as <-.
  destruct (division_correct _ _ _ _ _ _ _ lab m s a b r T G So De Ns Af Lo Dx (value_here _ _ _ _ _ _ Sp (or_introl eq_refl) Va) (value_here _ _ _ _ _ _ Sp (or_intror eq_refl) Vb) Bi) as (m' & R & V & C & Vg & Vd & Bx).
  set (extra := RAX :: RDX :: RBX :: (if operand_reg (ren g) then [] else [R10])) in *. change (changes_only (extra ++ regs_of [ren (IMMC_OPERAND_REG sd rd); ren (IMMC_OPERAND_REG sf rf); ren g]) m m') in C.
  exists m'. split; [exact R |]. split; [| split; [| reflexivity]].
  - eapply moved_regs; [exact Ag | exact C | | exact Bx | reflexivity]. apply kept_list. unfold extra. intros k I. cbn in I. destruct (operand_reg (ren g)); cbn in I |- *; tauto.
  - unfold result_in in V. cbn [ren operand_size operand_unsigned reg_unsigned] in V. rewrite Zd in V. destruct (result_low m' sd rd zd _ Zd V) as (k & Mk & Lk).
    assert (FU := first_used Lp L' after st t _ (IMMC_OPERAND_REG sf rf) (Some g) rd sd eq_refl Logic.I Sp U).
    eapply (result_has Lp L' after st t sd rd (IMMC_OPERAND_REG sf rf) (Some g) q m m' zd _ extra Sp Has); [exists k; split; [exact Mk | exact Lk] | exact (proj2 C) | | exact FU |].
    + intros r0 k0 L0 N0 M0 I0. assert (Special := machine_reg_kept _ _ M0). assert (W : writes (IMMC_INST t (Some (IMMC_OPERAND_REG sd rd)) (Some (IMMC_OPERAND_REG sf rf)) (Some g)) <> Some r0) by (cbn; congruence).
      destruct (second_other _ _ _ _ _ _ _ Sp L0 N0 (FU _ L0 N0) M0) as [Od Of].
      destruct I0 as [<- | [<- | [<- | I0]]]; [destruct Special; now left | | destruct Special; right; now left |].
      * apply Vd; [eapply machine_live; [exact Sp | exact L0 | exact W | exact M0 | reflexivity] | exact Od | exact Of].
      * destruct (operand_reg (ren g)) eqn:Og; [destruct I0 |]. destruct I0 as [<- | []]. exfalso. destruct Ten as [Ten | Ten].
        -- destruct g as [| sg rg | | | | |]; try contradiction. cbn in Vb, Og. destruct (suffix_size sg); [| discriminate Vb]. destruct (i_regs q (reg_id rg)) as [[zg xg] |] eqn:Eg; [| discriminate Vb]. destruct (Has _ (sp_reads _ _ _ _ _ Sp (reg_id rg) ltac:(cbn; right; now left)) _ _ Eg) as (kg & Mg & _). congruence.
        -- assert (place r0 = 6) as P6 by (eapply machine_reg_inj; [exact M0 | reflexivity]). apply (sp_later _ _ _ _ _ Sp _ L0). intros c Ic Ir. apply (Ten (renamed place c)); [now apply in_map |]. rewrite <- P6. clear -Ir. destruct c as [t0 d0 f0 g0 | | |]; try destruct Ir. cbn [reads renamed] in *. rewrite !in_app_iff in *.
           assert (O : forall o, In r0 (operand_register o) -> In (place r0) (operand_register (renamed_operand place o))) by (intros [[] |] I; cbn in *; intuition congruence). destruct Ir as [I | [I | I]]; [left; auto | right; left; auto | right; right]. destruct d0 as [[] |]; cbn in *; intuition congruence.
    + intros r0 k0 z y L0 N0 M0 E0 I0 NE NF. destruct g as [| sg rg | | | | |]; try contradiction; try (destruct I0; fail); try discriminate Vb. destruct I0 as [<- | []].
      eapply value_kept; [exact Vb | exact E0 | exact M0 |]. apply Vg. cbn [operand_reg ren reg_id]. rewrite M0. destruct (second_other _ _ _ _ _ _ _ Sp L0 N0 NF M0) as [Od Of]. cbn [operand_reg ren reg_id] in Od, Of.
      intros [X | [X | [X | [X | []]]]]; [discriminate X | injection X as <-; apply NE; right; now left | now apply Od | now apply Of].
Qed.
Lemma unary_sim t d f : In t [IMMC_INST_NEG; IMMC_INST_NOT] -> spot Lp L' after st (IMMC_INST t (Some d) (Some f) None) ->
  is_register (ren d) -> is_register_or_literal (ren f) -> (exists s, operand_size (ren d) = Some s /\ operand_size (ren f) = Some s /\ loadable (ren f) s) -> used_up (IMMC_INST t (Some d) (Some f) None) after ->
  gen_inst_x64code (IMMC_INST t (Some (ren d)) (Some (ren f)) None) st = Ok (cs, st') -> istep (IMMC_INST t (Some d) (Some f) None) q = INext q' -> sim_ok L' cs st' q m q'.
Proof.
  intros T Sp Rd Rf (s & Sd & Sf & Lo) U G H.
  assert (H' : match ivalue q f with Some a => match unop_spec t a with Some v => put_result d v q | None => IStuck end | None => IStuck end = INext q') by (cbn in T; destruct T as [<- | [<- | []]]; exact H).
  clear H. destruct (ren_is_register _ Rd) as (sd & rd & ->). destruct (ivalue q f) as [a |] eqn:Va; [| discriminate H']. destruct (unop_spec t a) as [r |] eqn:Uo; [| discriminate H']. cbn [put_result] in H'. cbn in Sd. rewrite Sd in H'. injection H' as <-.
  destruct (unary_correct _ _ _ _ _ _ lab m s a r T G Rd Rf Sf Lo) as (m' & R & V & C); [exists s; split; [exact Sd | intros (_ & X & Y); rewrite X in Y; discriminate Y] | eapply value_here; [exact Sp | now left | exact Va] | exact Uo |].
  change (changes_only ([RAX] ++ regs_of [ren (IMMC_OPERAND_REG sd rd); ren f]) m m') in C.
  exists m'. split; [exact R |]. split; [| split; [| reflexivity]].
  - eapply moved_regs; [exact Ag | exact C | apply kept_list; cbn; tauto | | reflexivity]. left. apply C. apply bx_list. cbn. intuition discriminate.
  - cbn [ren operand_size operand_unsigned reg_unsigned] in V. rewrite Sd in V. destruct (result_low m' sd rd s _ Sd V) as (k & Mk & Lk). rewrite low_interp in Lk.
    eapply (result_has Lp L' after st t sd rd f None q m m' s _ [RAX] Sp Has); [exists k; split; [exact Mk | exact Lk] | exact (proj2 C) | | |].
    + intros r0 k0 _ _ M0 [<- | []]. apply machine_reg_kept in M0. exfalso. apply M0. now left.
    + destruct f as [| sf rf | | | | |]; try contradiction; [eapply first_used; [reflexivity | exact Logic.I | exact Sp | exact U] | intros ? ? ? []].
    + intros r0 k0 z y _ _ _ _ [].
Qed.
Lemma setcmp_sim t d f g : is_setcmp t -> spot Lp L' after st (IMMC_INST t (Some d) (Some f) (Some g)) ->
  (exists s, sources (ren f) (ren g) s) -> is_register (ren d) -> operand_size (ren d) <> None -> operand_reg (ren d) = operand_reg (ren f) ->
  gen_inst_x64code (IMMC_INST t (Some (ren d)) (Some (ren f)) (Some (ren g))) st = Ok (cs, st') -> istep (IMMC_INST t (Some d) (Some f) (Some g)) q = INext q' -> sim_ok L' cs st' q m q'.
Proof.
  intros T Sp (s & So) Rd Sd Eq G H.
  assert (H' : match common f g, ivalue q f, ivalue q g with Some s, Some a, Some b => match compare t (operand_unsigned f) s a b with Some r => put_result d (if r then 1 else 0) q | None => IStuck end | _, _, _ => IStuck end = INext q')
    by (unfold is_setcmp in T; cbn in T; repeat (destruct T as [<- | T]; [exact H |]); destruct T).
  clear H. destruct (ren_is_register _ Rd) as (sd & rd & ->). destruct (ren_is_register _ (proj1 So)) as (sf & rf & ->). assert (S3 := proj1 (proj2 (proj2 So))). rewrite ren_common in S3. rewrite S3 in H'.
  destruct (ivalue q (IMMC_OPERAND_REG sf rf)) as [a |] eqn:Va; [| discriminate H']. destruct (ivalue q g) as [b |] eqn:Vb; [| discriminate H'].
  destruct (setcmp_correct _ _ _ _ _ _ _ lab m s a b T G So Rd Sd Eq (value_here _ _ _ _ _ _ Sp (or_introl eq_refl) Va) (value_here _ _ _ _ _ _ Sp (or_intror eq_refl) Vb)) as (m' & bb & R & Cm & V & C & Vg).
  rewrite ren_unsigned in Cm. rewrite Cm in H'. cbn [put_result] in H'. destruct (suffix_size sd) as [zd |] eqn:Zd; [| discriminate H']. injection H' as <-.
  change (changes_only ([RAX] ++ regs_of [ren (IMMC_OPERAND_REG sd rd); ren (IMMC_OPERAND_REG sf rf); ren g]) m m') in C.
  exists m'. split; [exact R |]. split; [| split; [| reflexivity]].
  - eapply moved_regs; [exact Ag | exact C | apply kept_list; cbn; tauto | | reflexivity]. left. apply C. apply bx_list. cbn. intuition discriminate.
  - unfold result_in in V. cbn [ren operand_size operand_unsigned reg_unsigned] in V. rewrite Zd in V. destruct (result_low m' sd rd zd _ Zd V) as (k & Mk & Lk).
    assert (One : interp (reg_unsigned rd) S1 (if bb then 1 else 0) = if bb then 1 else 0) by (destruct (reg_unsigned rd), bb; reflexivity). rewrite One in Lk.
    assert (FU : forall r, L' r -> r <> reg_id rd -> ~ In r (operand_register (Some (IMMC_OPERAND_REG sf rf)))).
    { intros r Lr N [<- | []]. apply (sp_kept _ _ _ _ _ Sp _ (reg_id rd) Lr eq_refl); [congruence |]. cbn [operand_reg ren reg_id] in Eq. eapply machine_reg_inj; [exact Mk | congruence]. }
    eapply (result_has Lp L' after st t sd rd (IMMC_OPERAND_REG sf rf) (Some g) q m m' zd _ [RAX] Sp Has); [exists k; split; [exact Mk | exact Lk] | exact (proj2 C) | | exact FU |].
    + intros r0 k0 _ _ M0 [<- | []]. apply machine_reg_kept in M0. exfalso. apply M0. now left.
    + intros r0 k0 z y L0 N0 M0 E0 I0 _ NF. destruct g as [| sg rg | | | | |]; try contradiction; try (destruct I0; fail); try discriminate Vb. destruct I0 as [<- | []].
      eapply value_kept; [exact Vb | exact E0 | exact M0 |]. apply Vg. cbn [operand_reg ren reg_id]. rewrite M0. destruct (second_other _ _ _ _ _ _ _ Sp L0 N0 NF M0) as [Od Of]. cbn [operand_reg ren reg_id] in Od, Of.
      intros [X | [X | []]]; [discriminate X | now apply Od].
Qed.
Lemma shift_sim t d f g : In t [IMMC_INST_SAL; IMMC_INST_SAR] -> spot Lp L' after st (IMMC_INST t (Some d) (Some f) (Some g)) ->
  (exists s, sources (ren f) (ren g) s /\ destination (ren d) s) -> (t = IMMC_INST_SAR -> operand_unsigned (ren f) = false) -> used_up (IMMC_INST t (Some d) (Some f) (Some g)) after ->
  gen_inst_x64code (IMMC_INST t (Some (ren d)) (Some (ren f)) (Some (ren g))) st = Ok (cs, st') -> istep (IMMC_INST t (Some d) (Some f) (Some g)) q = INext q' -> sim_ok L' cs st' q m q'.
Proof.
  intros T Sp (s & So & De) Un U G H.
  assert (H' : match common f g, ivalue q f, ivalue q g with Some s, Some a, Some b => match binop t (operand_unsigned f) s a b with Some r => put_result d (interp (operand_unsigned d) s r) q | None => IStuck end | _, _, _ => IStuck end = INext q')
    by (cbn in T; destruct T as [<- | [<- | []]]; exact H).
  clear H. destruct (ren_is_register _ (proj1 De)) as (sd & rd & ->). destruct (ren_is_register _ (proj1 So)) as (sf & rf & ->). assert (S3 := proj1 (proj2 (proj2 So))). rewrite ren_common in S3. rewrite S3 in H'.
  destruct (ivalue q (IMMC_OPERAND_REG sf rf)) as [a |] eqn:Va; [| discriminate H']. destruct (ivalue q g) as [b |] eqn:Vb; [| discriminate H'].
  destruct (binop t (operand_unsigned (IMMC_OPERAND_REG sf rf)) s a b) as [r |] eqn:Bi; [| discriminate H']. cbn [put_result] in H'. destruct (suffix_size sd) as [zd |] eqn:Zd; [| discriminate H']. injection H' as <-.
  destruct (shift_correct _ _ _ _ _ _ _ lab m s a b r T G So De (value_here _ _ _ _ _ _ Sp (or_introl eq_refl) Va) (value_here _ _ _ _ _ _ Sp (or_intror eq_refl) Vb)) as (m' & R & V & C); [intros X Y; rewrite (Un X) in Y; discriminate Y | exact Bi |].
  change (changes_only ([RAX] ++ regs_of [ren (IMMC_OPERAND_REG sd rd); ren (IMMC_OPERAND_REG sf rf)]) m m') in C.
  exists m'. split; [exact R |]. split; [| split; [| reflexivity]].
  - eapply moved_regs; [exact Ag | exact C | apply kept_list; cbn; tauto | | reflexivity]. left. apply C. apply bx_list. cbn. intuition discriminate.
  - unfold result_in in V. cbn [ren operand_size operand_unsigned reg_unsigned] in V. rewrite Zd in V. destruct (result_low m' sd rd zd _ Zd V) as (k & Mk & Lk).
    assert (FU := first_used Lp L' after st t _ (IMMC_OPERAND_REG sf rf) (Some g) rd sd eq_refl Logic.I Sp U).
    eapply (result_has Lp L' after st t sd rd (IMMC_OPERAND_REG sf rf) (Some g) q m m' zd _ [RAX] Sp Has); [exists k; split; [exact Mk | exact Lk] | | | exact FU |].
    + intros k0 N0. apply C. intros I0. apply N0. rewrite in_app_iff in I0 |- *. destruct I0 as [I0 | I0]; [now left | right]. unfold regs_of in *. cbn [flat_map] in *. rewrite !in_app_iff in *. tauto.
    + intros r0 k0 _ _ M0 [<- | []]. apply machine_reg_kept in M0. exfalso. apply M0. now left.
    + intros r0 k0 z y L0 N0 M0 E0 I0 NE NF. destruct (second_other _ _ _ _ _ _ _ Sp L0 N0 NF M0) as [Od Of]. f_equal. apply C. intros J. apply in_app_iff in J as [J | J]; [contradiction |]. apply in_regs_of in J as (o & [<- | [<- | []]] & O); [now apply Od | now apply Of].
Qed.
(** instructions that only change the destination *)
Lemma only_result t sd rd f zd x m' : spot Lp L' after st (IMMC_INST t (Some (IMMC_OPERAND_REG sd rd)) (Some f) None) -> (exists k, machine_reg (place (reg_id rd)) = Some k /\ low zd (rget (regs m') k) = x) ->
  (forall k, ~ In k ([RAX] ++ regs_of [ren (IMMC_OPERAND_REG sd rd)]) -> rget (regs m') k = rget (regs m) k) -> forall r, L' r -> has (set_reg (reg_id rd) zd x q) m' r.
Proof.
  intros Sp Res C r Lr. destruct (Z.eq_dec r (reg_id rd)) as [E | N].
  - subst r. intros s y E. cbn in E. unfold upd in E. rewrite Z.eqb_refl in E. injection E as <- <-. exact Res.
  - assert (W : writes (IMMC_INST t (Some (IMMC_OPERAND_REG sd rd)) (Some f) None) <> Some r) by (cbn; congruence). assert (H := Has _ (sp_before _ _ _ _ _ Sp _ Lr W)).
    intros s y E. cbn in E. unfold upd in E. destruct (Z.eqb_spec r (reg_id rd)); [contradiction |]. destruct (H _ _ E) as (k & Mk & Lk). exists k. split; [exact Mk |]. rewrite <- Lk. f_equal. apply C. intros I. apply in_app_iff in I as [[<- | []] | I].
    + apply machine_reg_kept in Mk. apply Mk. now left.
    + apply in_regs_of in I as (o & [<- | []] & O). cbn in O. apply (sp_kept _ _ _ _ _ Sp r (reg_id rd) Lr eq_refl); [congruence |]. eapply machine_reg_inj; eassumption.
Qed.
Lemma load_seen s a x : load (w_mem (i_world q)) s a = Some x -> accessible (mem m) a (size_bytes s) /\ holds (mem m) a (size_bytes s) x.
Proof.
  intros H. destruct (ag_seen _ _ Ag) as [S1' S2']. unfold load in H. destruct (valid _ a (nbytes s)) eqn:V; [| discriminate H]. apply valid_accessible in V. injection H as <-. assert (Ac := S1' _ _ V). split; [exact Ac |].
  destruct (load_some _ s a Ac (ag_bytes _ _ Ag)) as (v & L & Hv). unfold load in L. destruct (valid (mem m) a (nbytes s)); [| discriminate L]. injection L as <-.
  assert (E : forall n b, (forall i, 0 <= i < Z.of_nat n -> peek (mem m) (b + i) = peek (w_mem (i_world q)) (b + i)) -> load_bytes (mem m) b n = load_bytes (w_mem (i_world q)) b n).
  { induction n as [| n IH]; intros b Hb; [reflexivity |]. cbn [load_bytes]. rewrite (IH (b + 1)) by (intros i I; replace (b + 1 + i) with (b + (1 + i)) by lia; apply Hb; lia). specialize (Hb 0 ltac:(lia)). rewrite Z.add_0_r in Hb. now rewrite Hb. }
  rewrite <- E; [exact Hv |]. intros i I. apply S2'. destruct V as (A0 & rg & Ir & B1 & B2). split; [lia |]. exists rg. split; [exact Ir | lia].
Qed.
Lemma load_sim d f : spot Lp L' after st (IMMC_INST IMMC_INST_LOAD (Some d) (Some f) None) -> is_register (ren d) ->
  (exists z, operand_size (ren d) = Some z /\ match ren f with IMMC_OPERAND_PTR _ | IMMC_OPERAND_MEM _ | IMMC_OPERAND_LABEL _ => True | _ => is_register_or_literal (ren f) /\ operand_size (ren f) <> None /\ widens_operand (ren f) z /\ loadable (ren f) z end) ->
  gen_inst_x64code (IMMC_INST IMMC_INST_LOAD (Some (ren d)) (Some (ren f)) None) st = Ok (cs, st') -> istep (IMMC_INST IMMC_INST_LOAD (Some d) (Some f) None) q = INext q' -> sim_ok L' cs st' q m q'.
Proof.
  intros Sp Rd (z & Zd & Fo) G H. destruct (ren_is_register _ Rd) as (sd & rd & ->). cbn in Zd. cbn [ImmcSem.istep] in H.
  assert (K : exists m' y, runs lab cs m (Next m') /\ value m' (ren (IMMC_OPERAND_REG sd rd)) = Some (interp (reg_unsigned rd) z y) /\ changes_only ([RAX] ++ regs_of [ren (IMMC_OPERAND_REG sd rd)]) m m' /\ q' = set_reg (reg_id rd) z (low z y) q).
  { destruct (is_memory f) eqn:Mf.
    - cbn [operand_size] in H. rewrite Zd in H. destruct (iaddress q f) as [a |] eqn:Ad; [| discriminate H]. destruct (load (w_mem (i_world q)) z a) as [y |] eqn:Ld; [| discriminate H]. cbn [put_result] in H. rewrite Zd in H. injection H as <-. destruct (load_seen _ _ _ Ld) as [Ac Ho].
      assert (Lo : location lab m (ren f) = Some a) by (apply (location_ok q); [exact Ag | exact Ad |]; intros r I; apply Has, (sp_reads _ _ _ _ _ Sp); cbn; rewrite !in_app_iff; now left).
      destruct (load_memory_correct _ _ _ _ _ lab m z a y G Rd Zd Lo (ag_bytes _ _ Ag) Ac Ho) as (m' & R & V & C). exists m', y. split; [exact R |]. split; [exact V |]. split; [| reflexivity]. destruct C as [C1 C2]. split; [exact C1 |]. intros k N. apply C2. intros I. apply N. now right.
    - destruct (ivalue q f) as [y |] eqn:Vf; [| discriminate H]. cbn [put_result] in H. rewrite Zd in H. injection H as <-. assert (Fo' : is_register_or_literal (ren f) /\ operand_size (ren f) <> None /\ widens_operand (ren f) z /\ loadable (ren f) z) by (destruct f; try discriminate Mf; exact Fo). destruct Fo' as (F1 & F2 & F3 & F4).
      destruct (load_value_correct _ _ _ _ _ lab m z y G Rd Zd F1 F2 F3 F4) as (m' & R & V & C); [eapply value_here; [exact Sp | now left | exact Vf] |]. exists m', y. split; [exact R |]. split; [exact V |]. split; [exact C | reflexivity]. }
  destruct K as (m' & y & R & V & C & ->). exists m'. split; [exact R |]. split; [| split; [| reflexivity]].
  - eapply moved_regs; [exact Ag | exact C | apply kept_list; cbn; tauto | | reflexivity]. left. apply C. apply bx_list. cbn. intuition discriminate.
  - eapply only_result; [exact Sp | exact (result_low m' sd rd z _ Zd V) | exact (proj2 C)].
Qed.
Lemma addr_sim d f : spot Lp L' after st (IMMC_INST IMMC_INST_ADDR (Some d) (Some f) None) -> is_register (ren d) -> operand_size (ren d) = Some S8 ->
  gen_inst_x64code (IMMC_INST IMMC_INST_ADDR (Some (ren d)) (Some (ren f)) None) st = Ok (cs, st') -> istep (IMMC_INST IMMC_INST_ADDR (Some d) (Some f) None) q = INext q' -> sim_ok L' cs st' q m q'.
Proof.
  intros Sp Rd Zd G H. destruct (ren_is_register _ Rd) as (sd & rd & ->). cbn in Zd. cbn [ImmcSem.istep] in H. destruct (iaddress q f) as [a |] eqn:Ad; [| discriminate H]. cbn [put_result] in H. rewrite Zd in H. injection H as <-.
  assert (Lo : location lab m (ren f) = Some a) by (apply (location_ok q); [exact Ag | exact Ad |]; intros r I; apply Has, (sp_reads _ _ _ _ _ Sp); cbn; rewrite !in_app_iff; now left).
  destruct (addr_correct _ _ _ _ _ lab m a G Rd Zd Lo) as (m' & R & V & C0). assert (C : changes_only ([RAX] ++ regs_of [ren (IMMC_OPERAND_REG sd rd)]) m m') by (destruct C0 as [C1 C2]; split; [exact C1 |]; intros k N; apply C2; intros I; apply N; now right).
  exists m'. split; [exact R |]. split; [| split; [| reflexivity]].
  - eapply moved_regs; [exact Ag | exact C | apply kept_list; cbn; tauto | | reflexivity]. left. apply C. apply bx_list. cbn. intuition discriminate.
  - eapply only_result; [exact Sp | exact (result_low m' sd rd S8 _ Zd V) | exact (proj2 C)].
Qed.
Lemma moved_written a n v M' m' : accessible (w_mem (i_world q)) a n -> written (w_mem (i_world q)) a n v M' -> written (mem m) a n v (mem m') -> (forall k, In k (RBX :: kept_regs) -> rget (regs m') k = rget (regs m) k) ->
  moved q m (set_world (set_wmem (i_world q) M') q) m' st'.
Proof.
  intros Ac [W1 W2] [N1 N2] K. destruct Ag as [A1 [S1' S2'] A3]. constructor; cbn [i_world set_world w_mem set_wmem].
  - constructor; cbn [i_world set_world w_mem set_wmem]; [rewrite K by (cbn; auto); exact A1 | | eapply written_byte_memory; [exact A3 | split; [exact N1 | exact N2]]]. split.
    + intros b k H. assert (H' : accessible (w_mem (i_world q)) b k) by (unfold accessible in *; now rewrite <- W1). apply S1' in H'. unfold accessible in *. now rewrite N1.
    + intros b H. assert (H' : accessible (w_mem (i_world q)) b 1) by (unfold accessible in *; now rewrite <- W1). rewrite N2, W2 by apply H. destruct (_ && _); [reflexivity | now apply S2'].
  - intros k I. apply K. now right.
  - left. apply K. now left.
  - intros b B0 Nb. rewrite N2 by exact B0. destruct ((a <=? b) && (b <? a + n)) eqn:X; [| reflexivity]. exfalso. apply Nb. destruct Ac as (A0 & rg & Ir & B1 & B2). split; [lia |]. exists rg. split; [exact Ir | lia].
  - exact W1.
  - exact N1.
Qed.
Lemma store_seen s a v M' : store (w_mem (i_world q)) s a v = Some M' -> accessible (w_mem (i_world q)) a (size_bytes s) /\ accessible (mem m) a (size_bytes s) /\ written (w_mem (i_world q)) a (size_bytes s) v M'.
Proof.
  intros H. assert (Ac : accessible (w_mem (i_world q)) a (size_bytes s)) by (unfold store in H; destruct (valid _ a (nbytes s)) eqn:V; [| discriminate H]; now apply valid_accessible in V). split; [exact Ac |]. split; [now apply (ag_seen _ _ Ag) |].
  destruct (store_written _ s a v Ac) as (M2 & E & W). assert (M2 = M') by congruence. subst M2. exact W.
Qed.
Lemma store_sim d f : spot Lp L' after st (IMMC_INST IMMC_INST_STORE (Some d) (Some f) None) -> is_register_or_literal (ren f) -> (exists z, operand_size (ren f) = Some z /\ encodable z (ren f)) ->
  gen_inst_x64code (IMMC_INST IMMC_INST_STORE (Some (ren d)) (Some (ren f)) None) st = Ok (cs, st') -> istep (IMMC_INST IMMC_INST_STORE (Some d) (Some f) None) q = INext q' -> sim_ok L' cs st' q m q'.
Proof.
  intros Sp Rf (z & Zf & En) G H. cbn [ImmcSem.istep] in H. destruct (iaddress q d) as [a |] eqn:Ad; [| discriminate H]. assert (Zf' := Zf). rewrite ren_size in Zf'. rewrite Zf' in H. destruct (ivalue q f) as [v |] eqn:Vf; [| discriminate H]. destruct (store (w_mem (i_world q)) z a v) as [M' |] eqn:St; [| discriminate H]. injection H as <-.
  destruct (store_seen _ _ _ _ St) as (Ac & Ac' & Wr).
  assert (Lo : location lab m (ren d) = Some a) by (apply (location_ok q); [exact Ag | exact Ad |]; intros r I; apply Has, (sp_reads _ _ _ _ _ Sp); cbn; apply in_app_iff; right; destruct d; try (destruct I; fail); try discriminate Ad; exact I).
  destruct (store_correct _ _ _ _ _ lab m z a v G Rf Zf En Lo Ac') as (m' & R & Rg & W); [eapply value_here; [exact Sp | now left | exact Vf] |].
  exists m'. split; [exact R |]. split; [| split; [| reflexivity]].
  - eapply moved_written; [exact Ac | exact Wr | exact W | intros; now rewrite Rg].
  - intros r Lr s x E. cbn in E. rewrite Rg. apply Has; [| exact E]. apply (sp_before _ _ _ _ _ Sp); [exact Lr |]. cbn. destruct d; try discriminate Ad; discriminate.
Qed.
(** the value to be returned *)
Lemma stret_sim f : spot Lp L' after st (IMMC_INST IMMC_INST_STRET None (Some f) None) -> is_register_or_literal (ren f) -> (exists z, operand_size (ren f) = Some z /\ loadable (ren f) z) ->
  gen_inst_x64code (IMMC_INST IMMC_INST_STRET None (Some (ren f)) None) st = Ok (cs, st') -> istep (IMMC_INST IMMC_INST_STRET None (Some f) None) q = INext q' ->
  exists m', runs lab cs m (Next m') /\ moved q m q' m' st' /\ (forall r, L' r -> has q' m' r) /\ exists s x, i_ret q' = Some (s, x) /\ low s (rget (regs m') RAX) = x.
Proof.
  intros Sp Rf (z & Zf & Lo) G H. cbn [ImmcSem.istep] in H. assert (Zf' := Zf). rewrite ren_size in Zf'. rewrite Zf' in H. destruct (ivalue q f) as [v |] eqn:Vf; [| discriminate H]. injection H as <-.
  destruct (stret_correct _ _ _ _ lab m z v G Rf Zf Lo) as (m' & R & V & C); [eapply value_here; [exact Sp | now left | exact Vf] |]. change (changes_only ([RAX] ++ regs_of []) m m') in C.
  exists m'. split; [exact R |]. split; [| split].
  - eapply moved_regs; [exact Ag | exact C | apply kept_list; cbn; tauto | | reflexivity]. left. apply C. apply bx_list. cbn. intuition discriminate.
  - intros r Lr s x E. cbn in E. assert (W : writes (IMMC_INST IMMC_INST_STRET None (Some f) None) <> Some r) by discriminate. destruct (Has _ (sp_before _ _ _ _ _ Sp _ Lr W) _ _ E) as (k & Mk & Lk). exists k. split; [exact Mk |]. rewrite <- Lk. f_equal. apply C. cbn. intros [<- | []]. apply machine_reg_kept in Mk. apply Mk. now left.
  - exists z, (low z v). split; [reflexivity | exact V].
Qed.
(** parameters; no register is live yet *)
Lemma ldarg_sim off sf r : (forall k s x a, nth_error params (Z.to_nat k) = Some (s, x) -> 0 <= k -> argument_reg k = Some a -> low s (rget (regs m) a) = low s x) -> argument_reg (reg_id r) <> None -> (forall r, ~ L' r) ->
  gen_inst_x64code (IMMC_INST IMMC_INST_LDARG (Some (IMMC_OPERAND_MEM off)) (Some (IMMC_OPERAND_ARG sf r)) None) st = Ok (cs, st') -> istep (IMMC_INST IMMC_INST_LDARG (Some (IMMC_OPERAND_MEM off)) (Some (IMMC_OPERAND_ARG sf r)) None) q = INext q' ->
  sim_ok L' cs st' q m q' /\ forall m', runs lab cs m (Next m') -> forall k a, argument_reg k = Some a -> rget (regs m') a = rget (regs m) a.
Proof.
  intros Pa Ar NL G H. cbn [ImmcSem.istep ImmcSem.iaddress] in H. destruct (suffix_size sf) as [s |] eqn:Sf; [| discriminate H]. destruct (nth_error params (Z.to_nat (reg_id r))) as [[s' x] |] eqn:En; [| discriminate H]. destruct (CSem.size_eqb s s' && (0 <=? reg_id r)) eqn:Z0; [| discriminate H]. apply andb_true_iff in Z0 as [Z0 P0]. apply size_eqb_true in Z0. subst s'.
  destruct (store _ s _ x) as [M' |] eqn:St; [| discriminate H]. injection H as <-. destruct (store_seen _ _ _ _ St) as (Ac & Ac' & Wr). destruct (argument_reg (reg_id r)) as [a |] eqn:Ea; [| congruence].
  destruct (ldarg_correct _ _ _ _ _ _ lab m s _ (low s x) G Sf eq_refl) as (m' & R & W & C).
  { rewrite (ag_frame _ _ Ag). exact Ac'. } { exact (ag_bytes _ _ Ag). } { unfold argument_in. rewrite Ea. apply (Pa (reg_id r)); [exact En | lia | exact Ea]. }
  rewrite (ag_frame _ _ Ag) in W. split.
  - exists m'. split; [exact R |]. split; [| split; [intros r0 L0; destruct (NL _ L0) | reflexivity]]. eapply moved_written; [exact Ac | exact Wr | eapply written_low; [| exact W]; apply low_low |]. intros k I. apply C. intros ->. cbn in I. intuition discriminate.
  - intros m2 R2 k b Eb. assert (m2 = m') as -> by (pose proof (runs_det _ _ _ _ _ R R2) as X; now injection X). apply C. intros ->. destruct k as [| p | p]; try discriminate Eb; do 3 (destruct p as [p | p |]; try discriminate Eb).
Qed.
(** jumps *)
Lemma jcmp_sim t l f g : is_jcmp t -> spot Lp L' after st (IMMC_INST t (Some (IMMC_OPERAND_LABEL l)) (Some f) (Some g)) -> (exists s, sources (ren f) (ren g) s) ->
  gen_inst_x64code (IMMC_INST t (Some (IMMC_OPERAND_LABEL l)) (Some (ren f)) (Some (ren g))) st = Ok (cs, st') -> forall o, istep (IMMC_INST t (Some (IMMC_OPERAND_LABEL l)) (Some f) (Some g)) q = o -> o <> IStuck ->
  exists m', (o = IGoto l q /\ runs lab cs m (Goto l m') \/ o = INext q /\ runs lab cs m (Next m')) /\ moved q m q m' st' /\ (forall r, Lp r -> has q m' r).
Proof.
  intros T Sp (s & So) G o H NS.
  assert (H' : match common f g, ivalue q f, ivalue q g with Some s, Some a, Some b => match compare t (operand_unsigned f) s a b with Some r => if r then IGoto l q else INext q | None => IStuck end | _, _, _ => IStuck end = o)
    by (unfold is_jcmp in T; cbn in T; repeat (destruct T as [<- | T]; [exact H |]); destruct T).
  clear H. destruct (ren_is_register _ (proj1 So)) as (sf & rf & ->). assert (S3 := proj1 (proj2 (proj2 So))). rewrite ren_common in S3. rewrite S3 in H'.
  destruct (ivalue q (IMMC_OPERAND_REG sf rf)) as [a |] eqn:Va; [| congruence]. destruct (ivalue q g) as [b |] eqn:Vb; [| congruence].
  destruct (jcmp_correct _ _ _ _ _ _ _ lab m s a b T G So (value_here _ _ _ _ _ _ Sp (or_introl eq_refl) Va) (value_here _ _ _ _ _ _ Sp (or_intror eq_refl) Vb)) as (m' & bb & Cm & R & C & Vf & Vg).
  rewrite ren_unsigned in Cm. rewrite Cm in H'. change (changes_only ([RAX] ++ regs_of [ren (IMMC_OPERAND_REG sf rf); ren g]) m m') in C.
  exists m'. split; [destruct bb; subst o; auto |]. split.
  - eapply moved_regs; [exact Ag | exact C | apply kept_list; cbn; tauto | | reflexivity]. left. apply C. apply bx_list. cbn. intuition discriminate.
  - intros r Lr. apply (has_other q m); [now apply Has |]. intros z x k E Mk. destruct (Z.eq_dec r (reg_id rf)) as [-> | Nf]; [eapply value_kept; [exact Va | exact E | exact Mk | exact Vf] |].
    destruct (in_dec Z.eq_dec r (operand_register (Some g))) as [Ig | Ng].
    + destruct g as [| sg rg | | | | |]; try (destruct Ig; fail); try discriminate Vb. destruct Ig as [<- | []]. eapply value_kept; [exact Vb | exact E | exact Mk |]. apply Vg. cbn [operand_reg ren reg_id]. congruence.
    + f_equal. apply C. intros I. apply in_app_iff in I as [[<- | []] | I]; [apply machine_reg_kept in Mk; apply Mk; now left |]. apply in_regs_of in I as (o0 & [<- | [<- | []]] & O).
      * cbn in O. apply (sp_apart _ _ _ _ _ Sp r (reg_id rf) Lr); [apply (sp_reads _ _ _ _ _ Sp); cbn; now left | exact Nf | eapply machine_reg_inj; eassumption].
      * assert (F : forall r2, operand_register (Some g) = [r2] -> machine_reg (place r2) = Some k -> False).
        { intros r2 Ef Mf. apply (sp_apart _ _ _ _ _ Sp r r2 Lr); [apply (sp_reads _ _ _ _ _ Sp); cbn; right; rewrite in_app_iff; left; change (In r2 (operand_register (Some g))); rewrite Ef; now left | intros ->; apply Ng; rewrite Ef; now left | eapply machine_reg_inj; eassumption]. }
        destruct g; try discriminate O; (eapply F; [reflexivity | exact O]).
Qed.
End Ops.
End Sim.
