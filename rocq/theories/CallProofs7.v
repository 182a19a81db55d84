(** C34, C44: the code of a call *)
From Coq Require Import Lia ZifyBool.
From Verif Require Import Base ElabProofs MapModel SetModel MapSpec MapProofs MapProofs2 SetProofs ISetProofs DtypeModel ImmcModel RegallocModel X64Model X64Isa X64Decode X64genModel OpSpec IsaProofs IsaMemProofs X64genProofs X64genProofs2 CallSpec X64Isa.
Local Open Scope Z_scope.
Local Open Scope bool_scope.
Ltac splits := repeat match goal with |- _ /\ _ => split end.

(** * Live registers *)
Lemma alive_indices_exact : forall l i s s' (f : Z -> option unit), iinv s -> MapProofs.exact s f -> (forall j, i <= j -> f j = None) -> alive_indices l i s = Ok s' ->
  NoDup (set_items s') /\ (forall x, imem s' x <-> imem s x \/ exists k q, nth_error l k = Some q /\ liveseq_isalive q = Ok true /\ x = i + Z.of_nat k).
Proof.
  induction l as [| q l IH]; intros i s s' f I EX FR H; cbn [alive_indices] in H.
  - injection H as <-. split; [apply EX |]. intros x. split; [auto |]. intros [? | (k & q & E & _)]; [assumption | destruct k; discriminate E].
  - apply bind_ok in H as (a & A & H). apply bind_ok in H as (s1 & S1 & H). destruct a.
    + destruct (iadd_ok _ _ _ I S1) as (I1 & M1). destruct (add_exact Z.eqb hash_integer Z.eqb_eq hash_integer_nonneg s f i tt s1 I EX S1 (or_intror (FR i (Z.le_refl i)))) as (EX1 & _).
      assert (FR1 : forall j, i + 1 <= j -> upd_step Z.eqb f (UAdd i tt) j = None) by (intros j J; cbn; destruct (i =? j) eqn:E; [lia |]; apply FR; lia).
      destruct (IH _ _ _ _ I1 EX1 FR1 H) as (N & M).
      split; [exact N |]. intros x. rewrite M, M1. split.
      * intros [[-> | ?] | (k & q' & E & L & ->)]; [right; exists O, q; cbn; splits; auto; lia | auto | right; exists (S k), q'; splits; auto; lia].
      * intros [? | (k & q' & E & L & ->)]; [auto |]. destruct k as [| k]; [left; left; lia | right; exists k, q'; splits; auto; lia].
    + injection S1 as <-. assert (FR1 : forall j, i + 1 <= j -> f j = None) by (intros j J; apply FR; lia). destruct (IH _ _ _ _ I EX FR1 H) as (N & M). split; [exact N |]. intros x. rewrite M. split.
      * intros [? | (k & q' & E & L & ->)]; [auto | right; exists (S k), q'; splits; auto; lia].
      * intros [? | (k & q' & E & L & ->)]; [auto |]. destruct k as [| k]; [cbn in E; congruence | right; exists k, q'; splits; auto; lia].
Qed.
Lemma alive_set st set : create_alive_reg_induces_set (x_lives st) = Ok set -> NoDup (set_items set) /\ forall x, In x (set_items set) <-> exists k, x = Z.of_nat k /\ live_after st k.
Proof.
  intros H. destruct (alive_indices_exact _ _ _ _ (fun _ => None) inew_inv (new_exact) (fun _ _ => eq_refl) H) as (N & M). split; [exact N |]. intros x. change (In x (set_items set)) with (imem set x). rewrite M. split.
  - intros [A | (k & q & E & L & ->)]; [destruct (inew_mem _ A) |]. exists k. split; [lia |]. exists q. auto.
  - intros (k & -> & q & E & L). right. exists k, q. auto.
Qed.
Definition dst_id (dst : option ope) : option Z := match dst with Some d => match ope_reg d with Some r => Some (reg_id r) | None => None end | None => None end.
Lemma evacuations_spec : forall l dst count ev, 0 <= count -> evacuations l dst count = Ok ev -> NoDup l ->
  (forall i, In i l -> dst_id dst <> Some i -> exists a b, CALLER i = Ok a /\ In (a, b) ev)
  /\ (forall p, In p ev -> exists i, In i l /\ dst_id dst <> Some i /\ CALLER i = Ok (fst p))
  /\ List.map snd ev = firstn (length ev) (skipn (Z.to_nat count) CALLEE_SAVED_REG_IDS)
  /\ NoDup (List.map fst ev) /\ (length ev <= length l)%nat.
Proof.
  induction l as [| i l IH]; intros dst count ev P H N; cbn [evacuations] in H.
  - injection H as <-. splits; [intros i [] | intros p [] | reflexivity | constructor | auto].
  - apply bind_ok in H as (d & D & H). apply bind_ok in H as (dr & DR & H). destruct dst as [d0 |]; [| discriminate D]. injection D as ->. assert (DI : dst_id (Some d) = Some (reg_id dr)) by (cbn; destruct (ope_reg d); [injection DR as ->; reflexivity | discriminate DR]).
    inversion N as [| ? ? N1 N2]; subst. destruct (i =? reg_id dr) eqn:E.
    + destruct (IH _ _ _ P H N2) as (A1 & A2 & A3 & A4 & A5). splits; auto; [| | cbn; lia].
      * intros j [<- | J] NE; [rewrite DI in NE; destruct NE; f_equal; lia | auto].
      * intros p I. destruct (A2 p I) as (j & J & R). exists j. split; [now right | exact R].
    + apply bind_ok in H as (ce & CE & H). apply bind_ok in H as (cr & CR & H). apply bind_ok in H as (t & T & H). injection H as <-.
      destruct (IH _ (count + 1) _ ltac:(lia) T N2) as (A1 & A2 & A3 & A4 & A5).
      assert (IJ : forall j, CALLER j = Ok cr -> j = i).
      { intros j J. apply caller_machine in J, CR. clear - J CR. assert (IN : forall k q, machine_reg k = Some q -> In (k, q) [(0, RCX); (1, RDX); (2, RSI); (3, RDI); (4, X64Isa.R8); (5, X64Isa.R9); (6, R10); (7, R11)]).
        { intros k q H. destruct k as [| p | p]; try discriminate H; [cbn in H; injection H as <-; now left |]. do 4 (destruct p as [p | p |]; try discriminate H; try (cbn in H; injection H as <-; cbn; tauto)). }
        apply IN in CR, J. generalize dependent (reg_of cr). intros q CR J. cbn in CR, J.
        repeat (destruct CR as [CR | CR]; [repeat (destruct J as [J | J]; [congruence |]); destruct J |]). destruct CR. }
      splits.
      * intros j [<- | J] NE; [exists cr, ce; split; [exact CR | now left] |]. destruct (A1 j J NE) as (a & b & C & I). exists a, b. split; [exact C | now right].
      * intros p [<- | I]; [exists i; splits; [now left | rewrite DI; intros X; injection X as X; lia | exact CR] |]. destruct (A2 p I) as (j & J & R). exists j. split; [now right | exact R].
      * cbn [List.map snd length]. replace (Z.to_nat (count + 1)) with (S (Z.to_nat count)) in A3 by lia. rewrite A3. clear - CE P. unfold CALLEE, reg_at in CE. destruct (count <? 0); [discriminate CE |]. destruct (nth_error CALLEE_SAVED_REG_IDS (Z.to_nat count)) as [x |] eqn:E; [| discriminate CE]. cbn in CE. injection CE as ->.
        revert E. generalize CALLEE_SAVED_REG_IDS as L. generalize (Z.to_nat count) as n. induction n as [| n IH]; intros [| y L] E; try discriminate E; cbn in *; [injection E as ->; reflexivity | now apply IH].
      * cbn [List.map fst]. constructor; [| exact A4]. intros I. apply in_map_iff in I as ([a b] & X & I). cbn in X. subst a. destruct (A2 _ I) as (j & J & _ & C). cbn in C. apply IJ in C. subst j. contradiction.
      * cbn. lia.
Qed.

(** * Moves between registers *)
Lemma moves_run e : forall l m, NoDup (List.map snd l) -> (forall p q, In p l -> In q l -> fst p <> snd q) ->
  exists m', runs e (flat_map (fun p => append_mov_code X64_SUFFIX_QUAD (fst p) X64_SUFFIX_QUAD (snd p) false) l) m (Next m')
    /\ mem m' = mem m /\ (forall p, In p l -> rget (regs m') (reg_of (snd p)) = low S8 (rget (regs m) (reg_of (fst p))))
    /\ (forall q, ~ In q (List.map (fun p => reg_of (snd p)) l) -> rget (regs m') q = rget (regs m) q).
Proof.
  induction l as [| [a b] l IH]; intros m N DJ.
  - exists m. splits; auto; [exists []; auto | intros p []].
  - cbn [flat_map fst snd]. assert (AB : a <> b) by (apply (DJ (a, b) (a, b)); now left). cbn in N. inversion N as [| ? ? N1 N2]; subst.
    assert (E : append_mov_code X64_SUFFIX_QUAD a X64_SUFFIX_QUAD b false = [X64_INST X64_INST_MOVX (Some (X64_OPERAND_REG X64_SUFFIX_QUAD a)) (Some (X64_OPERAND_REG X64_SUFFIX_QUAD b))]).
    { unfold append_mov_code. rewrite Z.geb_leb, Z.leb_refl. unfold append_mov_code_simple. destruct (xreg_beq a b) eqn:Q; [apply xreg_beq_true in Q; contradiction | reflexivity]. }
    rewrite E. set (m1 := set_regs m (put (regs m) S8 (reg_of b) (get (regs m) S8 (reg_of a)))).
    destruct (IH m1 N2) as (m' & R & M & V & O); [intros p q I J; apply DJ; now right |]. exists m'. splits.
    + eapply runs_app; [apply run_mov_reg; reflexivity | exact R].
    + rewrite M. reflexivity.
    + intros p [<- | I].
      * cbn [fst snd]. rewrite O; [subst m1; cbn [regs set_regs]; rewrite rget_put8; unfold get; apply low_low |]. intros I. apply in_map_iff in I as ([a' b'] & Q & I). cbn in Q. apply reg_of_inj in Q. subst b'. apply N1. apply in_map_iff. exists (a', b). auto.
      * rewrite (V p I). f_equal. subst m1. cbn [regs set_regs]. apply rget_put_other. intros Q. apply reg_of_inj in Q. apply (DJ p (a, b)); [now right | now left | exact Q].
    + intros q Q. cbn in Q. rewrite O by tauto. subst m1. cbn [regs set_regs]. apply rget_put_other. intros ->. apply Q. now left.
Qed.
(** * Popping the arguments *)
Lemma pops_run e : forall rs vs m, NoDup rs -> ~ In SP_REG_ID rs -> byte_memory (mem m) -> (length rs <= length vs)%nat ->
  0 <= rget (regs m) RSP -> rget (regs m) RSP + 8 * Z.of_nat (length vs) < 2 ^ 64 ->
  (forall j v, nth_error vs j = Some v -> accessible (mem m) (rget (regs m) RSP + 8 * Z.of_nat j) 8 /\ holds (mem m) (rget (regs m) RSP + 8 * Z.of_nat j) 8 v) ->
  exists m', runs e (List.map (fun r => X64_INST X64_INST_POPX None (Some (X64_OPERAND_REG X64_SUFFIX_QUAD r))) rs) m (Next m') /\ mem m' = mem m
    /\ rget (regs m') RSP = rget (regs m) RSP + 8 * Z.of_nat (length rs)
    /\ (forall j r v, nth_error rs j = Some r -> nth_error vs j = Some v -> rget (regs m') (reg_of r) = v)
    /\ (forall q, q <> RSP -> ~ In q (List.map reg_of rs) -> rget (regs m') q = rget (regs m) q).
Proof.
  induction rs as [| r rs IH]; intros vs m N NS BM LE P0 PM H.
  - exists m. splits; auto; [exists []; auto | cbn; lia | intros j r v E; destruct j; discriminate E].
  - destruct vs as [| v vs]; [cbn in LE; lia |]. inversion N as [| ? ? N1 N2]; subst. cbn [length] in PM, LE.
    destruct (H O v eq_refl) as (AC & HO). rewrite Nat2Z.inj_0, Z.mul_0_r, Z.add_0_r in AC, HO. assert (LD := load_holds _ S8 _ _ AC HO BM).
    assert (VR : 0 <= v < 2 ^ 64) by (apply HO).
    assert (RS : reg_of r <> RSP) by (intros X; apply (reg_of_inj r SP_REG_ID) in X; subst r; apply NS; now left).
    set (m1 := set_regs m (rset (regs m) RSP (low S8 (rget (regs m) RSP + 8)))). set (m2 := set_regs m1 (put (regs m1) S8 (reg_of r) v)).
    assert (SP2 : rget (regs m2) RSP = rget (regs m) RSP + 8). { subst m2 m1. cbn [regs set_regs]. rewrite rget_put_other by congruence. rewrite rget_rset_same. apply low_small. change (2 ^ nbits S8) with (2 ^ 64). lia. }
    destruct (IH vs m2) as (m' & R & M & SP & V & O); auto; try lia.
    { intros I. apply NS. now right. }
    { intros j w E. rewrite SP2. destruct (H (S j) w E) as (A1 & A2). replace (rget (regs m) RSP + 8 + 8 * Z.of_nat j) with (rget (regs m) RSP + 8 * Z.of_nat (S j)) by lia. split; assumption. }
    exists m'. splits.
    + eapply (runs_app e [_] _); [| exact R]. replace (Next m2) with (exec e (Pop (reg_of r)) m); [apply runs_one; reflexivity |]. cbn [exec]. unfold pop. change (rsp (regs m)) with (rget (regs m) RSP). rewrite LD. reflexivity.
    + rewrite M. reflexivity.
    + rewrite SP, SP2. cbn [length]. lia.
    + intros j x w E1 E2. destruct j as [| j]; cbn in E1, E2; [injection E1 as <-; injection E2 as <- |].
      * rewrite O; [| exact RS | intros I; apply in_map_iff in I as (x & X & I); apply reg_of_inj in X; subst x; contradiction]. subst m2. cbn [regs set_regs]. rewrite rget_put8. now apply low_small.
      * eapply V; eassumption.
    + intros q Q1 Q2. cbn in Q2. rewrite O by tauto. subst m2 m1. cbn [regs set_regs]. rewrite rget_put_other by (intros ->; tauto). apply rget_rset_other. exact Q1.
Qed.
Lemma moves_swapped ev : flat_map (fun p => append_mov_code X64_SUFFIX_QUAD (snd p) X64_SUFFIX_QUAD (fst p) false) ev
  = flat_map (fun p => append_mov_code X64_SUFFIX_QUAD (fst p) X64_SUFFIX_QUAD (snd p) false) (List.map (fun p => (snd p, fst p)) ev).
Proof. induction ev as [| p ev IH]; [reflexivity |]. cbn [flat_map List.map fst snd]. now rewrite IH. Qed.
Lemma machine_reg_one i j q : machine_reg i = Some q -> machine_reg j = Some q -> i = j.
Proof.
  assert (IN : forall k q, machine_reg k = Some q -> In (k, q) [(0, RCX); (1, RDX); (2, RSI); (3, RDI); (4, X64Isa.R8); (5, X64Isa.R9); (6, R10); (7, R11)]).
  { intros k x H. destruct k as [| p | p]; try discriminate H; [cbn in H; injection H as <-; now left |]. do 4 (destruct p as [p | p |]; try discriminate H; try (cbn in H; injection H as <-; cbn; tauto)). }
  intros A B. apply IN in A, B. cbn in A, B. repeat (destruct A as [A | A]; [repeat (destruct B as [B | B]; [congruence |]); destruct B |]). destruct A.
Qed.
Lemma caller_callee i j a b : CALLER i = Ok a -> nth_error CALLEE_SAVED_REG_IDS j = Some b -> a <> b.
Proof.
  unfold CALLER, reg_at. destruct (i <? 0); [discriminate |]. destruct (nth_error CALLER_SAVED_REG_IDS (Z.to_nat i)) as [x |] eqn:X; [| discriminate]. cbn. intros H B. injection H as ->. apply nth_error_In in X, B. cbn in X, B.
  intros <-. repeat (destruct X as [X | X]; [subst a; repeat (destruct B as [B | B]; [discriminate B |]); destruct B |]). destruct X.
Qed.
Lemma firstn_in {T} n (l : list T) x : In x (firstn n l) -> In x l.
Proof. revert n. induction l as [| y l IH]; intros [| n] H; try destruct H; [now left | right; eauto]. Qed.
Lemma firstn_more {T} n m (l : list T) x : (n <= m)%nat -> In x (firstn n l) -> In x (firstn m l).
Proof. revert n m. induction l as [| y l IH]; intros [| n] [| m] L H; try destruct H; try lia; [now left | right; eapply IH; [| eassumption]; lia]. Qed.
Lemma NoDup_firstn {T} n (l : list T) : NoDup l -> NoDup (firstn n l).
Proof. revert n. induction l as [| y l IH]; intros [| n] H; try constructor; inversion H; subst; auto. intros I. apply firstn_in in I. contradiction. Qed.
Lemma arg_reg_at j r : nth_error ARG_REG_IDS j = Some r -> argument_reg (Z.of_nat j) = Some (reg_of r).
Proof. intros H. do 6 (destruct j as [| j]; [cbn in H; injection H as <-; reflexivity |]). destruct j; discriminate H. Qed.
Lemma argument_reg_at k q : argument_reg k = Some q -> exists j r, k = Z.of_nat j /\ nth_error ARG_REG_IDS j = Some r /\ reg_of r = q /\ (j < 6)%nat.
Proof.
  intros H. destruct k as [| p | p]; try discriminate H; [injection H as <-; exists O, DI_REG_ID; splits; auto; lia |].
  do 3 (destruct p as [p | p |]; try discriminate H; try (injection H as <-; match goal with |- context [Z.pos ?p] => let n := eval vm_compute in (Pos.to_nat p) in exists n; eexists; splits; [reflexivity | reflexivity | reflexivity | lia] end)).
Qed.
Lemma nth_firstn {T} n (l : list T) j : (j < n)%nat -> nth_error (firstn n l) j = nth_error l j.
Proof. revert n j. induction l as [| x l IH]; intros [| n] [| j] L; try lia; cbn; auto. apply IH. lia. Qed.
Lemma callee_saved_regs r : In r CALLEE_SAVED_REG_IDS -> In (reg_of r) callee_saved /\ reg_of r <> RSP /\ reg_of r <> RAX.
Proof. cbn. intros H. repeat (destruct H as [H | H]; [subst r; cbn; splits; [tauto | discriminate | discriminate] |]). destruct H. Qed.
Lemma caller_not_saved i a : CALLER i = Ok a -> ~ In (reg_of a) callee_saved.
Proof.
  intros H I. apply caller_machine in H. destruct (machine_reg_not_special _ _ H) as (A & B & C & D). generalize dependent (reg_of a). intros q H. cbn. intros I. 
  destruct i as [| p | p]; try discriminate H; [cbn in H; injection H as <-; intuition discriminate |]. do 4 (destruct p as [p | p |]; try discriminate H; try (cbn in H; injection H as <-; intuition discriminate)).
Qed.
Lemma call_correct dst f s i st cs st' e m vs :
  gen_inst_x64code (IMMC_INST IMMC_INST_CALL dst (Some f) (Some (IMMC_OPERAND_INT s i))) st = Ok (cs, st') ->
  count_of (Some (IMMC_OPERAND_INT s i)) = Z.of_nat (length vs) ->
  match dst with Some d => is_register d /\ operand_size d <> None | None => True end ->
  (forall q, 0 <= rget (regs m) q < 2 ^ 64) -> byte_memory (mem m) -> rget (regs m) RSP + 8 * Z.of_nat (length vs) < 2 ^ 64 ->
  (forall j v, nth_error vs j = Some v -> accessible (mem m) (rget (regs m) RSP + 8 * Z.of_nat j) 8 /\ holds (mem m) (rget (regs m) RSP + 8 * Z.of_nat j) 8 v) ->
  exists pre c post m1 i1, cs = pre ++ c :: post /\ runs e pre m (Next m1) /\ insns [c] = Some [i1]
    /\ match f with
       | IMMC_OPERAND_LABEL l => exec e i1 m1 = Calls l m1
       | IMMC_OPERAND_PTR r => exists q, machine_reg (reg_id r) = Some q /\ exec e i1 m1 = Calls_at (rget (regs m) q) m1
       | _ => False
       end
    /\ mem m1 = mem m /\ rget (regs m1) RSP = rget (regs m) RSP + 8 * Z.min 6 (Z.of_nat (length vs)) /\ rget (regs m1) RAX = 0
    /\ (forall j v q, nth_error vs j = Some v -> argument_reg (Z.of_nat j) = Some q -> rget (regs m1) q = v)
    /\ forall m2, returned m1 m2 -> exists m3, runs e post m2 (Next m3) /\ mem m3 = mem m2 /\ rget (regs m3) RSP = rget (regs m1) RSP
       /\ (forall k q, live_after st k -> dst_id dst <> Some (Z.of_nat k) -> machine_reg (Z.of_nat k) = Some q -> rget (regs m3) q = rget (regs m) q)
       /\ (forall d z q, dst = Some d -> operand_size d = Some z -> operand_reg d = Some q -> low z (rget (regs m3) q) = low z (rget (regs m2) RAX))
       /\ (forall q, In q callee_saved -> q <> RSP -> ~ In q (List.map reg_of (firstn (Z.to_nat (x_evac st')) CALLEE_SAVED_REG_IDS)) -> rget (regs m3) q = rget (regs m) q)
       /\ ((forall k k', live_after st k -> live_after st k' -> dst_id dst <> Some (Z.of_nat k) -> dst_id dst <> Some (Z.of_nat k') -> k = k') -> rget (regs m3) RBP = rget (regs m) RBP).
Proof.
  intros H CN DS WD BM PM AR. cbn [gen_inst_x64code] in H. unfold gen_call in H. cbn [deref bind] in H. apply bind_ok in H as (set & SET & H). apply bind_ok in H as (ev & EV & H). apply bind_ok in H as (n & N & H).
  apply bind_ok in H as ([keep callee] & K & H). apply bind_ok in H as (move & MV & H). set (pops := List.map _ (used_arg_regs n)) in H. set (save := flat_map _ ev) in H.
  assert (NV : n = Z.of_nat (length vs)). { cbn in N. injection N as <-. exact CN. }
  assert (EX' : x_evac st' = Z.max (x_evac st) (Z.of_nat (length ev))) by (unfold finish in H; apply bind_ok in H as (l & _ & H); injection H as <- <-; reflexivity).
  apply finish_ok in H. destruct (alive_set _ _ SET) as (ND & LV). destruct (evacuations_spec _ _ _ _ (Z.le_refl 0) EV ND) as (E1 & E2 & E3 & E4 & E5). cbn [Z.to_nat skipn] in E3.
  assert (NS : NoDup (List.map snd ev)) by (rewrite E3; apply NoDup_firstn; repeat constructor; cbn; intuition discriminate).
  assert (DJ : forall p q, In p ev -> In q ev -> fst p <> snd q).
  { intros p q I J. destruct (E2 p I) as (k & _ & _ & C). assert (Q : In (snd q) CALLEE_SAVED_REG_IDS) by (eapply (firstn_in (length ev)); rewrite <- E3; now apply in_map). apply In_nth_error in Q as (z & Q). eapply caller_callee; eassumption. }
  assert (SN : forall q, In q (List.map (fun p => reg_of (snd p)) ev) -> In q (List.map reg_of (firstn (length ev) CALLEE_SAVED_REG_IDS))) by (intros q I; rewrite <- E3, map_map; exact I).
  assert (SV : forall q, In q (List.map (fun p => reg_of (snd p)) ev) -> In q callee_saved /\ q <> RSP /\ q <> RAX) by (intros q I; apply SN in I; apply in_map_iff in I as (r & <- & I); apply callee_saved_regs; eapply firstn_in, I).
  (* save *)
  destruct (moves_run e ev m NS DJ) as (ma & Ra & Ma & Va & Oa). fold save in Ra.
  (* keep *)
  assert (exists mb, runs e keep ma (Next mb) /\ mem mb = mem ma /\ (forall q, q <> R10 -> rget (regs mb) q = rget (regs ma) q)
    /\ match f with IMMC_OPERAND_LABEL l => callee = X64_OPERAND_JLABEL l
       | IMMC_OPERAND_PTR r => exists q x, machine_reg (reg_id r) = Some q /\ callee = X64_OPERAND_JPTR x /\ rget (regs mb) (reg_of x) = rget (regs m) q /\ ~ In x (used_arg_regs n) /\ reg_of x <> RSP /\ reg_of x <> RAX
       | _ => False end) as (mb & Rb & Mb & Ob & Fb).
  { destruct f as [| | r | | l | |]; try discriminate K.
    - apply bind_ok in K as (x & X & K). apply bind_ok in K as (args & AG & K). apply bind_ok in K as (clash & CL & K).
      assert (CX : CALLER (reg_id r) = Ok x) by exact X. assert (MX := caller_machine _ _ CX). destruct (machine_reg_not_special _ _ MX) as (X1 & _ & X3 & _).
      assert (XA : rget (regs ma) (reg_of x) = rget (regs m) (reg_of x)) by (apply Oa; intros I; apply SV in I as (I & _); now apply (caller_not_saved _ _ CX)).
      assert (AG' : forall r, In r (used_arg_regs n) -> clash = false -> r <> x).
      { unfold create_arg_regs_set in AG. clear - AG CL. assert (G : forall l s s', iinv s -> add_regs l s = Ok s' -> iinv s' /\ (forall z, imem s z -> imem s' z) /\ forall r, In r l -> imem s' (xreg_num r)).
        { induction l as [| y l IH]; intros s s' I H; cbn in H; [injection H as <-; splits; auto; intros r [] |]. apply bind_ok in H as (s1 & A & H). destruct (iadd_ok _ _ _ I A) as (I1 & M1). destruct (IH _ _ I1 H) as (J1 & J2 & J3). splits; auto; [intros z Z; apply J2, M1; auto |]. intros r [<- | R]; [apply J2, M1; auto | auto]. }
        destruct (G _ _ _ inew_inv AG) as (I & _ & M). intros r R -> ->. assert (T := proj2 (icontains_ok _ _ _ I CL) (M _ R)). discriminate T. }
      destruct clash.
      + apply bind_ok in K as (t & T & K). change (CALLER (NUM_CALLER_SAVED_REGS - 2)) with (Ok R10_REG_ID) in T. injection T as <-. injection K as <- <-.
        destruct (append_mov_runs e X64_SUFFIX_QUAD S8 x X64_SUFFIX_QUAD S8 R10_REG_ID false ma eq_refl eq_refl) as (mb & R & M & _ & V & O & SM & _); [intros (C & _); discriminate C |].
        exists mb. splits; [exact R | exact M | intros q Q; apply O; [exact Q | discriminate] |]. exists (reg_of x), R10_REG_ID. splits; auto; [| | discriminate | discriminate].
        * cbn [reg_of] in *. assert (DC : x = R10_REG_ID \/ x <> R10_REG_ID) by (destruct x; first [now left | now right]); destruct DC as [-> | NE].
          -- rewrite (SM eq_refl ltac:(cbn; lia)). exact XA.
          -- unfold append_mov_code in R. rewrite Z.geb_leb, Z.leb_refl in R. unfold append_mov_code_simple in R. destruct (xreg_beq x R10_REG_ID) eqn:Q; [apply xreg_beq_true in Q; contradiction |].
             destruct R as (l & L1 & L2). destruct (run_mov_reg e X64_SUFFIX_QUAD S8 x R10_REG_ID ma eq_refl) as (l' & L1' & L2'). assert (l' = l) by congruence. subst l'. rewrite L2 in L2'. injection L2' as ->. cbn [regs set_regs reg_of].
             first [rewrite rget_put8 | rewrite rget_rset_same]. unfold get. rewrite ?low_low, XA. apply low_small. apply WD.
        * unfold used_arg_regs. intros I. apply firstn_in in I. cbn in I. intuition discriminate.
      + injection K as <- <-. exists ma. splits; auto; [exists []; auto |]. exists (reg_of x), x. splits; auto. intros I. now apply (AG' x I eq_refl).
    - injection K as <- <-. exists ma. splits; auto. exists []; auto. }
  (* pops *)
  assert (SPb : rget (regs mb) RSP = rget (regs m) RSP) by (rewrite Ob by discriminate; apply Oa; intros I; apply SV in I as (_ & I & _); congruence).
  assert (LU : length (used_arg_regs n) = Nat.min (length vs) 6) by (unfold used_arg_regs; rewrite firstn_length, NV, Nat2Z.id; reflexivity).
  destruct (pops_run e (used_arg_regs n) vs mb) as (mc & Rc & Mc & SPc & Vc & Oc).
  { apply NoDup_firstn. repeat constructor; cbn; intuition discriminate. }
  { intros I. apply firstn_in in I. cbn in I. intuition discriminate. }
  { rewrite Mb, Ma. exact BM. }
  { rewrite LU. lia. }
  { rewrite SPb. apply WD. }
  { rewrite SPb. exact PM. }
  { intros j v J. rewrite Mb, Ma, SPb. now apply AR. }
  fold pops in Rc.
  set (zero := X64_INST X64_INST_MOVX _ _) in H. set (m1 := set_regs mc (X64Isa.put (regs mc) S8 RAX (low S8 0))).
  assert (Rz : runs e [zero] mc (Next m1)) by (apply (run_mov_imm e X64_SUFFIX_QUAD S8 (mkil IInt 0 0) AX_REG_ID); reflexivity).
  assert (O1 : forall q, q <> RAX -> rget (regs m1) q = rget (regs mc) q) by (intros q Q; apply rget_put_other, Q).
  (* saved copies at the call *)
  assert (NA : forall q, In q callee_saved -> q <> RSP -> rget (regs m1) q = rget (regs ma) q).
  { intros q I Q. assert (q <> RAX /\ q <> R10) as [Q1 Q2] by (cbn in I; intuition congruence). rewrite O1 by exact Q1. rewrite Oc by (try exact Q; intros J; apply in_map_iff in J as (r & <- & J); apply firstn_in in J; cbn in I, J; clear - I J; intuition (subst; discriminate)). now apply Ob. }
  assert (P1 : rget (regs m1) RSP = rget (regs m) RSP + 8 * Z.min 6 (Z.of_nat (length vs))) by (rewrite O1 by discriminate; rewrite SPc, SPb, LU; lia).
  assert (exists i1, insns [X64_INST X64_INST_CALL (Some callee) None] = Some [i1] /\ match f with
       | IMMC_OPERAND_LABEL l => exec e i1 m1 = Calls l m1
       | IMMC_OPERAND_PTR r => exists q, machine_reg (reg_id r) = Some q /\ exec e i1 m1 = Calls_at (rget (regs m) q) m1
       | _ => False end) as (i1 & D1 & X1).
  { destruct f as [| | r | | l | |]; try contradiction.
    - destruct Fb as (q & x & Q & -> & V & NI & X1 & X2). exists (Call_reg (reg_of x)). split; [reflexivity |]. exists q. split; [exact Q |]. cbn [exec]. f_equal. rewrite O1 by exact X2. rewrite Oc; [exact V | exact X1 |]. intros I. apply in_map_iff in I as (y & Y & I). apply reg_of_inj in Y. now subst y.
    - subst callee. eexists. split; reflexivity. }
  exists (save ++ keep ++ pops ++ [zero]), (X64_INST X64_INST_CALL (Some callee) None). eexists. exists m1, i1. splits.
  - rewrite H. rewrite <- !app_assoc. cbn [app]. reflexivity.
  - eapply runs_app; [exact Ra |]. eapply runs_app; [exact Rb |]. eapply runs_app; [exact Rc | exact Rz].
  - exact D1.
  - exact X1.
  - transitivity (mem mc); [reflexivity | congruence].
  - exact P1.
  - subst m1. cbn [regs set_regs]. first [rewrite rget_put8 | rewrite rget_rset_same]. reflexivity.
  - intros j v q J Q. destruct (argument_reg_at _ _ Q) as (j' & r & JJ & R & <- & L6). assert (j' = j) by lia. subst j'. clear JJ. rewrite O1 by (apply nth_error_In in R; cbn in R; clear - R; intuition (subst; discriminate)). eapply Vc; [| exact J]. unfold used_arg_regs. rewrite nth_firstn; [exact R |]. assert (j < length vs)%nat by (apply nth_error_Some; rewrite J; discriminate). lia.
  - intros m2 RT. rewrite moves_swapped. set (ev' := List.map (fun p => (snd p, fst p)) ev).
    assert (NS' : NoDup (List.map snd ev')) by (subst ev'; rewrite map_map; exact E4).
    assert (DJ' : forall p q, In p ev' -> In q ev' -> fst p <> snd q).
    { intros p q I J. apply in_map_iff in I as (p' & <- & I). apply in_map_iff in J as (q' & <- & J). cbn. intros X. apply (DJ q' p' J I). auto. }
    destruct (moves_run e ev' m2 NS' DJ') as (md & Rd & Md & Vd & Od).
    assert (OD : forall q, ~ In q (List.map (fun p => reg_of (fst p)) ev) -> rget (regs md) q = rget (regs m2) q) by (intros q Q; apply Od; subst ev'; rewrite map_map; exact Q).
    assert (FC : forall q, In q (List.map (fun p => reg_of (fst p)) ev) -> ~ In q callee_saved /\ q <> RAX).
    { intros q I. apply in_map_iff in I as (p & <- & I). destruct (E2 p I) as (k & _ & _ & C). split; [eapply caller_not_saved, C | exact (proj1 (machine_reg_not_special _ _ (caller_machine _ _ C)))]. }
    assert (exists m3, runs e move md (Next m3) /\ mem m3 = mem md /\ (forall q, (forall d, dst = Some d -> operand_reg d <> Some q) -> rget (regs m3) q = rget (regs md) q)
      /\ (forall d z q, dst = Some d -> operand_size d = Some z -> operand_reg d = Some q -> low z (rget (regs m3) q) = low z (rget (regs md) RAX))) as (m3 & R3 & M3 & O3 & V3).
    { destruct dst as [d |]; [| injection MV as <-; exists md; splits; auto; [exists []; auto | discriminate]].
      apply bind_ok in MV as (r & R & MV). apply bind_ok in MV as (u & _ & MV). injection MV as <-. destruct DS as (DR & DZ). destruct d as [| sf rg | | | | |]; try contradiction. cbn [operand_size] in DZ. destruct (suffix_size sf) as [z |] eqn:SZ; [| contradiction].
      assert (SS := size_of_suffix (IMMC_OPERAND_REG sf rg) z SZ). assert (CR : CALLER (reg_id rg) = Ok r) by exact R. assert (MR := caller_machine _ _ CR).
      destruct (append_mov_runs e _ z AX_REG_ID _ z r u md SS SS) as (m3 & R3 & M3 & _ & V & O & _); [intros (_ & -> & X); discriminate X |].
      exists m3. splits; [exact R3 | exact M3 | |].
      - intros q Q. apply O; [| destruct u, z; discriminate]. intros ->. apply (Q _ eq_refl). exact MR.
      - intros d z' q E Z Q. injection E as <-. cbn [operand_size operand_reg] in Z, Q. rewrite SZ in Z. injection Z as <-. rewrite MR in Q. injection Q as <-. rewrite V. apply low_interp. }
    assert (NR : forall q, In q callee_saved -> forall d, dst = Some d -> operand_reg d <> Some q).
    { intros q I d -> X. destruct DS as (DR & _). destruct d as [| sf rg | | | | |]; try contradiction. cbn [operand_reg] in X. destruct (machine_caller _ _ X) as (x & C & <-). exact (caller_not_saved _ _ C I). }
    assert (CS : forall q, In q callee_saved -> rget (regs m3) q = rget (regs m1) q) by (intros q I; rewrite O3 by (now apply NR); rewrite OD by (intros J; apply FC in J; tauto); now apply RT).
    assert (CSM : forall q, In q callee_saved -> q <> RSP -> ~ In q (List.map reg_of (firstn (length ev) CALLEE_SAVED_REG_IDS)) -> rget (regs m3) q = rget (regs m) q) by (intros q I Q J; rewrite (CS q I), (NA q I Q); apply Oa; intros X; apply J, SN, X).
    exists m3. splits.
    + eapply runs_app; [exact Rd | exact R3].
    + congruence.
    + apply CS. cbn. tauto.
    + intros k q L ND0 Q. destruct (E1 (Z.of_nat k)) as (a & b & C & I); [apply LV; exists k; auto | exact ND0 |]. assert (reg_of a = q) as <- by (apply caller_machine in C; congruence).
      rewrite O3.
      * assert (I' : In (b, a) ev') by (apply in_map_iff; exists (a, b); auto). assert (V := Vd _ I'). cbn [fst snd] in V. rewrite V. assert (IB : In (reg_of b) (List.map (fun p => reg_of (snd p)) ev)) by (apply in_map_iff; exists (a, b); auto). destruct (SV _ IB) as (B1 & B2 & _).
        rewrite (RT _ B1), (NA _ B1 B2). assert (VA := Va _ I). cbn [fst snd] in VA. rewrite VA, low_low. apply low_small, WD.
      * intros d -> X. destruct DS as (DR & _). destruct d as [| sf rg | | | | |]; try contradiction. cbn [operand_reg] in X. apply ND0. cbn. f_equal. eapply machine_reg_one; eassumption.
    + intros d z q D Z Q. rewrite (V3 _ _ _ D Z Q). f_equal. apply OD. intros J. apply FC in J. tauto.
    + intros q I Q J. apply CSM; auto. intros X. apply J. apply in_map_iff in X as (r & <- & X). apply in_map_iff. exists r. split; [reflexivity |]. eapply firstn_more; [| exact X]. lia.
    + intros ONE. apply CSM; [cbn; tauto | discriminate |]. assert (L1 : (length ev <= 1)%nat).
      { destruct ev as [| p1 [| p2 ev2]]; cbn; try lia. exfalso. destruct (E2 p1 ltac:(now left)) as (i1' & I1 & N1 & C1). destruct (E2 p2 ltac:(right; now left)) as (i2 & I2 & N2 & C2). apply LV in I1 as (k1 & -> & L1). apply LV in I2 as (k2 & -> & L2).
        assert (k1 = k2) by (apply ONE; auto). subst k2. cbn in E4. inversion E4 as [| ? ? X1' _]. apply X1'. left. congruence. }
      intros X. apply in_map_iff in X as (r & X & I). assert (Y : In r (firstn 1 CALLEE_SAVED_REG_IDS)) by (eapply firstn_more; eassumption). cbn in Y. destruct Y as [<- | []]. discriminate X.
Qed.
