(** Vectors refine lists. *)
From Verif Require Import Base VectorModel VectorSpec.

Section Proofs.
  Context {A : Type}.
  Local Open Scope nat_scope.

  (** run the modelled vector functions on a pair of vectors *)
  Definition vstep (s : vector A * vector A) (o : vop A) : res ((vector A * vector A) * vout A) :=
    match o with
    | OPush b x => do v <- vector_push (get2 s b) x; Ok (put2 s b v, RNone)
    | OPop b => do vx <- vector_pop (get2 s b); Ok (put2 s b (fst vx), RItem (snd vx))
    | OFill b n x => do v <- vector_fill (get2 s b) n x; Ok (put2 s b v, RNone)
    | OSet b i x => do vr <- vector_set (get2 s b) i x; Ok (put2 s b (fst vr), RBool (snd vr))
    | OInsert b i x => do v <- vector_insert (get2 s b) i x; Ok (put2 s b v, RNone)
    | OErase b i => do v <- vector_erase (get2 s b) i; Ok (put2 s b v, RNone)
    | OAt b i => do r <- vector_at (get2 s b) i; Ok (s, RPtr r)
    | OSize b => Ok (s, RNat (vector_size (get2 s b)))
    | OExtend b =>
        do vw <- vector_extend (get2 s b) (get2 s (negb b));
        Ok (put2 (put2 s b (fst vw)) (negb b) (snd vw), RNone)
    | OCopy b => do v <- vector_copy (get2 s (negb b)); Ok (put2 s b v, RNone)
    end.

  Fixpoint vrun (s : vector A * vector A) (ops : list (vop A))
    : res ((vector A * vector A) * list (vout A)) :=
    match ops with
    | [] => Ok (s, [])
    | o :: t =>
        do sr <- vstep s o;
        do tr <- vrun (fst sr) t;
        Ok (fst tr, snd sr :: snd tr)
    end.

  Definition repr (v : vector A) (l : list A) : Prop :=
    vsize v = length l /\ vcap v = length (store v) /\ 1 <= vcap v /\
    exists rest, store v = map Some l ++ rest.

  Lemma list_set_app {B} (a : list B) x b y :
    list_set (a ++ x :: b) (length a) y = Some (a ++ y :: b).
  Proof. induction a as [|h t IH]; cbn; [reflexivity|]. rewrite IH; reflexivity. Qed.

  Lemma vwrite_app (a : list (option A)) x b y n :
    n = length a -> vwrite (a ++ x :: b) n y = Ok (a ++ Some y :: b).
  Proof. intros ->. unfold vwrite. rewrite list_set_app. reflexivity. Qed.

  Lemma vread_app (a : list (option A)) x b n :
    n = length a -> vread (a ++ Some x :: b) n = Ok x.
  Proof.
    intros ->. unfold vread. rewrite nth_error_app2 by lia.
    replace (length a - length a) with 0 by lia. reflexivity.
  Qed.

  Lemma vrealloc_ge (st : list (option A)) n :
    length st <= n -> vrealloc st n = st ++ repeat None (n - length st).
  Proof. intros H. unfold vrealloc. rewrite firstn_all2 by lia. reflexivity. Qed.

  Lemma length_vrealloc (st : list (option A)) n : length (vrealloc st n) = n.
  Proof. unfold vrealloc. rewrite app_length, firstn_length, repeat_length. lia. Qed.

  Lemma new_repr : repr new_vector ([] : list A).
  Proof. unfold repr, new_vector; cbn. repeat split; eauto. Qed.

  (** the growth step shared by push and insert *)
  Lemma grow_spec (v : vector A) l :
    repr v l ->
    exists st cap,
      (if vcap v <=? vsize v then (vrealloc (store v) (2 * vcap v), 2 * vcap v)
       else (store v, vcap v)) = (st, cap) /\
      cap = length st /\ 1 <= cap /\
      exists y rest, st = map Some l ++ y :: rest.
  Proof.
    intros (Hs & Hc & H1 & rest & Hst).
    assert (Hlen : length (store v) = length l + length rest)
      by (rewrite Hst, app_length, map_length; reflexivity).
    destruct (Nat.leb_spec (vcap v) (vsize v)) as [Hle|Hlt].
    - eexists _, _; split; [reflexivity|]. rewrite length_vrealloc. split; [reflexivity|].
      split; [lia|].
      assert (rest = []) by (destruct rest; [reflexivity| cbn in Hlen; lia]). subst rest.
      rewrite app_nil_r in Hst. cbn in Hlen.
      rewrite vrealloc_ge by lia.
      destruct (2 * vcap v - length (store v)) as [|n] eqn:E; [lia|].
      rewrite Hst. cbn. eauto.
    - eexists _, _; split; [reflexivity|]. split; [exact Hc|]. split; [exact H1|].
      destruct rest as [|y rest]; [cbn in Hlen; lia|]. eauto.
  Qed.

  Lemma push_repr v l (x : A) :
    repr v l -> exists v', vector_push v x = Ok v' /\ repr v' (l ++ [x]).
  Proof.
    intros Hr. pose proof (grow_spec v l Hr) as (st & cap & Hif & Hcap & H1 & y & rest & Hst).
    destruct Hr as (Hs & _). unfold vector_push. rewrite Hif. subst st.
    rewrite vwrite_app by (rewrite map_length; exact Hs).
    cbn. eexists; split; [reflexivity|]. unfold repr; cbn.
    split; [rewrite app_length; cbn; lia|].
    split; [rewrite Hcap, !app_length; cbn; lia|]. split; [exact H1|].
    exists rest. rewrite map_app, <- app_assoc. reflexivity.
  Qed.

  Lemma pop_repr v l (x : A) :
    repr v (l ++ [x]) -> exists v', vector_pop v = Ok (v', x) /\ repr v' l.
  Proof.
    intros (Hs & Hc & H1 & rest & Hst).
    rewrite app_length in Hs; cbn in Hs. unfold vector_pop.
    destruct (vsize v) as [|n] eqn:En; [lia|].
    assert (n = length l) by lia. subst n.
    rewrite map_app, <- app_assoc in Hst. cbn in Hst.
    rewrite Hst, vread_app by (rewrite map_length; reflexivity). cbn [bind].
    assert (Hlen : length (store v) = length l + S (length rest))
      by (rewrite Hst, app_length, map_length; reflexivity).
    destruct ((1 <? vcap v) && (2 * length l <? vcap v)) eqn:E.
    - assert (E1 : 1 < vcap v /\ 2 * length l < vcap v) by lia. clear E. destruct E1 as [E1 E2].
      eexists; split; [reflexivity|]. unfold repr; cbn [vsize vcap store].
      pose proof (Nat.div_mod (vcap v) 2 ltac:(lia)) as Hdm.
      pose proof (Nat.mod_upper_bound (vcap v) 2 ltac:(lia)) as Hmb.
      split; [reflexivity|]. split; [rewrite length_vrealloc; reflexivity|].
      split; [lia|]. unfold vrealloc.
      exists (firstn (vcap v / 2 - length l) (Some x :: rest)
              ++ repeat None (vcap v / 2 - length (map Some l ++ Some x :: rest))).
      rewrite firstn_app, map_length, firstn_all2 by (rewrite map_length; lia).
      rewrite <- app_assoc. reflexivity.
    - eexists; split; [reflexivity|]. unfold repr; cbn [vsize vcap store].
      split; [reflexivity|]. split; [rewrite Hc, Hst; reflexivity|]. split; [lia|]. eauto.
  Qed.

  Lemma fill_loop_repr n : forall (a rest : list (option A)) i x,
    i = length a -> n <= length rest ->
    fill_loop n (a ++ rest) i x = Ok (a ++ repeat (Some x) n ++ skipn n rest).
  Proof.
    induction n as [|n IH]; intros a rest i x Hi Hn; cbn; [reflexivity|].
    destruct rest as [|y rest]; [cbn in Hn; lia|].
    rewrite vwrite_app by exact Hi. cbn [bind].
    replace (a ++ Some x :: rest) with ((a ++ [Some x]) ++ rest) by (rewrite <- app_assoc; reflexivity).
    rewrite IH; [|rewrite app_length; cbn; lia|cbn in Hn; lia].
    rewrite <- app_assoc. reflexivity.
  Qed.

  Lemma fill_repr v l n (x : A) :
    repr v l -> exists v', vector_fill v n x = Ok v' /\ repr v' (l ++ repeat x (Z.to_nat n - length l)).
  Proof.
    intros (Hs & Hc & H1 & rest & Hst). unfold vector_fill.
    destruct (Z.leb_spec n (Z.of_nat (vsize v))) as [Hle|Hlt].
    - exists v. split; [reflexivity|]. replace (Z.to_nat n - length l) with 0 by lia.
      cbn. rewrite app_nil_r. unfold repr; eauto.
    - set (m := Z.to_nat n). assert (Hm : vsize v < m) by (unfold m; lia).
      assert (Hlen : length (store v) = length l + length rest)
        by (rewrite Hst, app_length, map_length; reflexivity).
      assert (Hgrow : exists st cap,
        (if vcap v <? m then (vrealloc (store v) m, m) else (store v, vcap v)) = (st, cap) /\
        cap = length st /\ m <= cap /\ exists r, st = map Some l ++ r).
      { destruct (Nat.ltb_spec (vcap v) m).
        - eexists _, _; split; [reflexivity|]. rewrite length_vrealloc. split; [reflexivity|].
          split; [lia|]. rewrite vrealloc_ge by lia. rewrite Hst.
          eexists. rewrite <- app_assoc. reflexivity.
        - eexists _, _; split; [reflexivity|]. split; [exact Hc|]. split; [lia|]. eauto. }
      destruct Hgrow as (st & cap & Hif & Hcap & Hmc & r & Hr).
      rewrite Hif.
      assert (Hrl : length st = length l + length r)
        by (rewrite Hr, app_length, map_length; reflexivity).
      rewrite Hr. rewrite fill_loop_repr; [|rewrite map_length; exact Hs|lia].
      cbn. eexists; split; [reflexivity|]. unfold repr; cbn [vsize vcap store].
      rewrite app_length, repeat_length.
      split; [lia|]. split.
      { rewrite !app_length, map_length, repeat_length, skipn_length. lia. }
      split; [lia|]. exists (skipn (m - vsize v) r).
      rewrite map_app, <- app_assoc. f_equal. f_equal.
      replace (m - length l) with (m - vsize v) by lia.
      induction (m - vsize v) as [|k IHk]; cbn; [reflexivity|]. f_equal; exact IHk.
  Qed.

  Lemma split_at (l : list A) i :
    i < length l -> exists y, l = firstn i l ++ y :: skipn (S i) l /\ length (firstn i l) = i.
  Proof.
    revert i; induction l as [|h t IH]; intros i Hi; cbn in Hi; [lia|].
    destruct i as [|i]; cbn.
    - eauto.
    - destruct (IH i ltac:(lia)) as (y & H1 & H2). exists y. split; [f_equal; exact H1|f_equal; exact H2].
  Qed.

  Lemma not_inb_guard i (n : nat) : inb i n = false -> ((i <? 0) || (Z.of_nat n <=? i))%Z = true.
  Proof. unfold inb. lia. Qed.
  Lemma inb_guard i (n : nat) : inb i n = true -> ((i <? 0) || (Z.of_nat n <=? i))%Z = false.
  Proof. unfold inb. lia. Qed.

  Lemma set_repr v l i (x : A) :
    repr v l ->
    exists v', vector_set v i x = Ok (v', inb i (length l)) /\
      repr v' (if inb i (length l) then firstn (Z.to_nat i) l ++ x :: skipn (S (Z.to_nat i)) l else l).
  Proof.
    intros (Hs & Hc & H1 & rest & Hst). unfold vector_set. rewrite Hs.
    destruct (inb i (length l)) eqn:Hi.
    - rewrite (inb_guard _ _ Hi).
      assert (Hlt : Z.to_nat i < length l) by (unfold inb in Hi; lia).
      destruct (split_at l (Z.to_nat i) Hlt) as (y & Hl & Hfl).
      assert (Hst' : store v = map Some (firstn (Z.to_nat i) l) ++ Some y :: map Some (skipn (S (Z.to_nat i)) l) ++ rest).
      { rewrite Hst, Hl at 1. rewrite map_app, <- app_assoc. reflexivity. }
      rewrite Hst'. rewrite vread_app by (rewrite map_length; lia). cbn [bind].
      rewrite vwrite_app by (rewrite map_length; lia). cbn [bind].
      eexists; split; [reflexivity|]. unfold repr; cbn [vsize vcap store].
      split.
      { rewrite Hl at 1. rewrite !app_length; cbn [length]. reflexivity. }
      split. { rewrite Hc, Hst', !app_length; cbn [length]. reflexivity. }
      split; [lia|]. exists rest. rewrite map_app, <- app_assoc. reflexivity.
    - rewrite (not_inb_guard _ _ Hi). exists v. split; [reflexivity|]. unfold repr; eauto.
  Qed.

  (** shifting the tail [c] of the written part one place to the right *)
  Lemma insert_loop_repr : forall (c a : list A) y rest,
    insert_loop (length a + length c) (length a) (map Some a ++ map Some c ++ y :: rest)
    = Ok (map Some a ++ match c with [] => y | h :: _ => Some h end :: map Some c ++ rest).
  Proof.
    induction c as [|z c IH] using rev_ind; intros a y rest.
    - cbn. rewrite Nat.add_0_r.
      destruct (length a) as [|n] eqn:E; cbn [insert_loop]; [reflexivity|].
      replace (S n <=? S n) with true by (symmetry; apply Nat.leb_refl). reflexivity.
    - rewrite app_length; cbn [length].
      replace (length a + (length c + 1)) with (S (length a + length c)) by lia.
      cbn [insert_loop].
      replace (S (length a + length c) <=? length a) with false
        by (symmetry; apply Nat.leb_gt; lia).
      rewrite map_app. cbn [map]. rewrite <- !app_assoc. cbn [app].
      replace (map Some a ++ map Some c ++ Some z :: y :: rest)
        with ((map Some a ++ map Some c) ++ Some z :: y :: rest) by (rewrite <- app_assoc; reflexivity).
      rewrite vread_app by (rewrite app_length, !map_length; reflexivity). cbn [bind].
      replace ((map Some a ++ map Some c) ++ Some z :: y :: rest)
        with ((map Some a ++ map Some c ++ [Some z]) ++ y :: rest)
        by (rewrite <- !app_assoc; reflexivity).
      rewrite vwrite_app by (rewrite !app_length, !map_length; cbn; lia). cbn [bind].
      rewrite <- !app_assoc. cbn [app].
      rewrite IH. destruct c; reflexivity.
  Qed.

  Lemma insert_repr v l i (x : A) :
    repr v l ->
    exists v', vector_insert v i x = Ok v' /\
      repr v' (if inb i (S (length l)) then firstn (Z.to_nat i) l ++ x :: skipn (Z.to_nat i) l else l).
  Proof.
    intros Hr. pose proof (grow_spec v l Hr) as (st & cap & Hif & Hcap & H1 & y & rest & Hst).
    assert (Hr' := Hr). destruct Hr' as (Hs & _). unfold vector_insert. rewrite Hs.
    destruct (inb i (S (length l))) eqn:Hi.
    - replace ((i <? 0) || (Z.of_nat (length l) <? i))%Z with false by (unfold inb in Hi; lia).
      rewrite Hs in Hif. rewrite Hif.
      set (k := Z.to_nat i). assert (Hk : k <= length l) by (unfold inb in Hi; unfold k; lia).
      assert (Hl : l = firstn k l ++ skipn k l) by (symmetry; apply firstn_skipn).
      assert (Hfl : length (firstn k l) = k) by (rewrite firstn_length; lia).
      assert (Hst' : st = map Some (firstn k l) ++ map Some (skipn k l) ++ y :: rest).
      { rewrite Hst, Hl at 1. rewrite map_app, <- app_assoc. reflexivity. }
      rewrite Hst'.
      assert (Hll : length l = length (firstn k l) + length (skipn k l))
        by (rewrite Hl at 1; rewrite app_length; reflexivity).
      pose proof (insert_loop_repr (skipn k l) (firstn k l) y rest) as HL.
      rewrite <- Hll, Hfl in HL. rewrite HL. cbn [bind].
      rewrite vwrite_app by (rewrite map_length; lia). cbn [bind].
      eexists; split; [reflexivity|]. unfold repr; cbn [vsize vcap store].
      split. { rewrite app_length; cbn [length]. lia. }
      split. { rewrite Hcap, Hst', !app_length; cbn [length]. rewrite !app_length, !map_length. cbn [length]. lia. }
      split; [lia|]. exists rest. rewrite map_app, <- app_assoc. reflexivity.
    - replace ((i <? 0) || (Z.of_nat (length l) <? i))%Z with true by (unfold inb in Hi; lia).
      exists v. split; [reflexivity|exact Hr].
  Qed.

  Lemma erase_loop_repr : forall (c a : list A) y rest,
    erase_loop (length c) (length a + 1) (map Some a ++ y :: map Some c ++ rest)
    = Ok (map Some a ++ map Some c ++ match rev c with [] => y | h :: _ => Some h end :: rest).
  Proof.
    induction c as [|z c IH]; intros a y rest.
    - reflexivity.
    - cbn [erase_loop length map].
      replace (map Some a ++ y :: (Some z :: map Some c) ++ rest)
        with ((map Some a ++ [y]) ++ Some z :: map Some c ++ rest)
        by (rewrite <- app_assoc; reflexivity).
      rewrite vread_app by (rewrite app_length, map_length; cbn; lia). cbn [bind].
      rewrite <- app_assoc. cbn [app].
      rewrite vwrite_app by (rewrite map_length; lia). cbn [bind].
      replace (map Some a ++ Some z :: Some z :: map Some c ++ rest)
        with (map Some (a ++ [z]) ++ Some z :: map Some c ++ rest)
        by (rewrite map_app, <- app_assoc; reflexivity).
      replace (S (length a + 1)) with (length (a ++ [z]) + 1) by (rewrite app_length; cbn; lia).
      rewrite IH. rewrite map_app, <- app_assoc. cbn [map app rev].
      destruct (rev c) as [|h t] eqn:E; reflexivity.
  Qed.

  Lemma erase_repr v l i :
    repr v l ->
    exists v', vector_erase v i = Ok v' /\
      repr v' (if inb i (length l) then firstn (Z.to_nat i) l ++ skipn (S (Z.to_nat i)) l else l).
  Proof.
    intros (Hs & Hc & H1 & rest & Hst). unfold vector_erase. rewrite Hs.
    destruct (inb i (length l)) eqn:Hi.
    - rewrite (inb_guard _ _ Hi).
      set (k := Z.to_nat i). assert (Hlt : k < length l) by (unfold inb in Hi; unfold k; lia).
      destruct (split_at l k Hlt) as (y & Hl & Hfl).
      assert (Hst' : store v = map Some (firstn k l) ++ Some y :: map Some (skipn (S k) l) ++ rest).
      { rewrite Hst, Hl at 1. rewrite map_app, <- app_assoc. reflexivity. }
      assert (Hll : length l = k + S (length (skipn (S k) l))).
      { rewrite Hl at 1. rewrite app_length, Hfl. reflexivity. }
      rewrite Hst'. rewrite vread_app by (rewrite map_length; lia). cbn [bind].
      replace (length l - (k + 1)) with (length (skipn (S k) l)) by lia.
      pose proof (erase_loop_repr (skipn (S k) l) (firstn k l) (Some y) rest) as HL.
      rewrite Hfl in HL. rewrite HL. cbn [bind].
      eexists; split; [reflexivity|]. unfold repr; cbn [vsize vcap store].
      split. { rewrite app_length, Hfl. lia. }
      split. { rewrite Hc, Hst', !app_length; cbn [length]. rewrite !app_length, !map_length. cbn [length]. lia. }
      split; [lia|]. eexists. rewrite map_app, <- app_assoc. reflexivity.
    - rewrite (not_inb_guard _ _ Hi). exists v. split; [reflexivity|]. unfold repr; eauto.
  Qed.

  Lemma at_repr (v : vector A) l i : repr v l -> vector_at v i = Ok (lookup l i).
  Proof.
    intros (Hs & Hc & H1 & rest & Hst). unfold vector_at, lookup. rewrite Hs.
    destruct (inb i (length l)) eqn:Hi.
    - rewrite (inb_guard _ _ Hi).
      assert (Hlt : Z.to_nat i < length l) by (unfold inb in Hi; lia).
      destruct (split_at l (Z.to_nat i) Hlt) as (y & Hl & Hfl).
      rewrite Hst. rewrite Hl at 1. rewrite map_app, <- app_assoc. cbn [map app].
      rewrite vread_app by (rewrite map_length; lia). cbn [bind].
      rewrite Hl at 1. rewrite nth_error_app2 by lia.
      replace (Z.to_nat i - length (firstn (Z.to_nat i) l)) with 0 by lia. reflexivity.
    - rewrite (not_inb_guard _ _ Hi). reflexivity.
  Qed.

  Lemma extend_loop_repr : forall (c a : list A) v l (other : vector A) rest,
    repr v l -> store other = map Some a ++ map Some c ++ rest ->
    exists v', extend_loop (length c) (length a) v other = Ok v' /\ repr v' (l ++ c).
  Proof.
    induction c as [|z c IH]; intros a v l other rest Hr Ho; cbn [length extend_loop].
    - exists v. rewrite app_nil_r. auto.
    - rewrite Ho. cbn [map app]. rewrite vread_app by (rewrite map_length; reflexivity). cbn [bind].
      destruct (push_repr v l z Hr) as (v' & Hp & Hr'). rewrite Hp. cbn [bind].
      destruct (IH (a ++ [z]) v' (l ++ [z]) other rest Hr') as (v'' & He & Hr'').
      { rewrite Ho, map_app, <- app_assoc. reflexivity. }
      rewrite app_length in He; cbn [length] in He.
      replace (S (length a)) with (length a + 1) by lia.
      exists v''. rewrite <- app_assoc in Hr''. auto.
  Qed.

  Lemma extend_repr v l (w : vector A) m :
    repr v l -> repr w m ->
    exists v' w', vector_extend v w = Ok (v', w') /\ repr v' (l ++ m) /\ repr w' [].
  Proof.
    intros Hr (Hs & Hc & H1 & rest & Hst). unfold vector_extend.
    destruct (extend_loop_repr m [] v l w rest Hr Hst) as (v' & He & Hr').
    rewrite Hs. cbn [length] in He. rewrite He. cbn [bind].
    eexists _, _; split; [reflexivity|]. split; [exact Hr'|].
    unfold repr; cbn [vsize vcap store length]. rewrite length_vrealloc.
    repeat split; [lia|]. exists (vrealloc (store w) 1). reflexivity.
  Qed.

  Lemma copy_loop_repr : forall (c a : list A) rest dst,
    length c <= length dst ->
    copy_loop (length c) (length a) (map Some a ++ map Some c ++ rest) (map Some a ++ dst)
    = Ok (map Some a ++ map Some c ++ skipn (length c) dst).
  Proof.
    induction c as [|z c IH]; intros a rest dst Hd; cbn [length copy_loop].
    - reflexivity.
    - destruct dst as [|d dst]; [cbn in Hd; lia|].
      cbn [map app]. rewrite vread_app by (rewrite map_length; reflexivity). cbn [bind].
      rewrite vwrite_app by (rewrite map_length; reflexivity). cbn [bind].
      replace (map Some a ++ Some z :: map Some c ++ rest)
        with (map Some (a ++ [z]) ++ map Some c ++ rest) by (rewrite map_app, <- app_assoc; reflexivity).
      replace (map Some a ++ Some z :: dst)
        with (map Some (a ++ [z]) ++ dst) by (rewrite map_app, <- app_assoc; reflexivity).
      replace (S (length a)) with (length (a ++ [z])) by (rewrite app_length; cbn; lia).
      rewrite IH by (cbn in Hd; lia). rewrite map_app, <- app_assoc. reflexivity.
  Qed.

  Lemma copy_repr (v : vector A) l : repr v l -> exists v', vector_copy v = Ok v' /\ repr v' l.
  Proof.
    intros (Hs & Hc & H1 & rest & Hst). unfold vector_copy. rewrite Hst, Hs.
    assert (Hlen : length (store v) = length l + length rest)
      by (rewrite Hst, app_length, map_length; reflexivity).
    pose proof (copy_loop_repr l [] rest (repeat None (vcap v))) as Hcl.
    cbn [map app length] in Hcl. rewrite Hcl by (rewrite repeat_length; lia). cbn [bind].
    eexists; split; [reflexivity|]. unfold repr; cbn [vsize vcap store].
    split; [reflexivity|]. rewrite app_length, map_length, skipn_length, repeat_length.
    split; [lia|]. split; [exact H1|]. eauto.
  Qed.

  Definition repr2 (s : vector A * vector A) (l : list A * list A) : Prop :=
    repr (fst s) (fst l) /\ repr (snd s) (snd l).

  Lemma repr2_get s l b : repr2 s l -> repr (get2 s b) (get2 l b).
  Proof. intros [H1 H2]; destruct b; assumption. Qed.
  Lemma repr2_put s l b v m : repr2 s l -> repr v m -> repr2 (put2 s b v) (put2 l b m).
  Proof. intros [H1 H2] H; destruct b; split; assumption. Qed.

  Lemma put2_get2 {T} (p : T * T) b : put2 p b (get2 p b) = p.
  Proof. destruct p, b; reflexivity. Qed.

  Lemma vstep_spec s l o :
    repr2 s l ->
    match spec_step l o with
    | Some (l', r) => exists s', vstep s o = Ok (s', r) /\ repr2 s' l'
    | None => vstep s o = UB
    end.
  Proof.
    intros H. destruct o as [b x|b|b n x|b i x|b i x|b i|b i|b|b|b]; cbn [spec_step vstep];
      pose proof (repr2_get _ _ b H) as Hb.
    - destruct (push_repr _ _ x Hb) as (v & -> & Hv). cbn [bind]. eauto using repr2_put.
    - destruct (rev (get2 l b)) as [|x r] eqn:E.
      + assert (get2 l b = []) as E0 by (rewrite <- (rev_involutive (get2 l b)), E; reflexivity).
        rewrite E0 in Hb. destruct Hb as (Hs & _). unfold vector_pop. rewrite Hs. reflexivity.
      + assert (get2 l b = rev r ++ [x]) as E0 by (rewrite <- (rev_involutive (get2 l b)), E; reflexivity).
        rewrite E0 in Hb. destruct (pop_repr _ _ x Hb) as (v & -> & Hv). cbn [bind fst snd].
        eauto using repr2_put.
    - destruct (fill_repr _ _ n x Hb) as (v & -> & Hv). cbn [bind]. eauto using repr2_put.
    - destruct (set_repr _ _ i x Hb) as (v & -> & Hv). cbn [bind fst snd].
      destruct (inb i (length (get2 l b))); eexists; (split; [reflexivity|]).
      + apply repr2_put; assumption.
      + rewrite <- (put2_get2 l b). apply repr2_put; assumption.
    - destruct (insert_repr _ _ i x Hb) as (v & -> & Hv). cbn [bind].
      destruct (inb i (S (length (get2 l b)))); eexists; (split; [reflexivity|]).
      + apply repr2_put; assumption.
      + rewrite <- (put2_get2 l b). apply repr2_put; assumption.
    - destruct (erase_repr _ _ i Hb) as (v & -> & Hv). cbn [bind].
      destruct (inb i (length (get2 l b))); eexists; (split; [reflexivity|]).
      + apply repr2_put; assumption.
      + rewrite <- (put2_get2 l b). apply repr2_put; assumption.
    - rewrite (at_repr _ _ i Hb). cbn [bind]. eauto.
    - unfold vector_size. destruct Hb as (Hs & _). rewrite Hs. eauto.
    - pose proof (repr2_get _ _ (negb b) H) as Hn.
      destruct (extend_repr _ _ _ _ Hb Hn) as (v & w & -> & Hv & Hw). cbn [bind fst snd].
      eexists; split; [reflexivity|]. apply repr2_put; [apply repr2_put|]; assumption.
    - pose proof (repr2_get _ _ (negb b) H) as Hn.
      destruct (copy_repr _ _ Hn) as (v & -> & Hv). cbn [bind]. eauto using repr2_put.
  Qed.

  Lemma vrun_spec ops : forall s l,
    repr2 s l ->
    match spec_run l ops with
    | Some (l', rs) => exists s', vrun s ops = Ok (s', rs) /\ repr2 s' l'
    | None => vrun s ops = UB
    end.
  Proof.
    induction ops as [|o ops IH]; intros s l H; cbn [spec_run vrun].
    - eauto.
    - pose proof (vstep_spec s l o H) as Hs.
      destruct (spec_step l o) as [[l1 r]|].
      + destruct Hs as (s1 & -> & H1). cbn [bind fst snd].
        specialize (IH s1 l1 H1). destruct (spec_run l1 ops) as [[l2 rs]|].
        * destruct IH as (s2 & -> & H2). cbn [bind fst snd]. eauto.
        * rewrite IH. reflexivity.
      + rewrite Hs. reflexivity.
  Qed.
End Proofs.

Lemma vector_history : forall (A : Type) (ops : list (vop A)),
  match spec_run ([], []) ops with
  | Some (_, outs) => exists s, vrun (new_vector, new_vector) ops = Ok (s, outs)
  | None => vrun (new_vector, new_vector) ops = UB
  end.
Proof.
  intros A ops. pose proof (vrun_spec ops (new_vector, new_vector) ([], []) (conj new_repr new_repr)) as H.
  destruct (spec_run ([], []) ops) as [[l outs]|]; [|exact H]. destruct H as (s & H & _). eauto.
Qed.
