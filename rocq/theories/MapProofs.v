(** Maps: invariant of the open-addressing table, lookup correctness, histories. *)
From Verif Require Import Base MapModel MapSpec.
From Coq Require Import Permutation.

Section Proofs.
  Context {K V : Type}.
  Variable keq : K -> K -> bool.
  Variable hash : K -> Z.
  Hypothesis keq_spec : forall a b, keq a b = true <-> a = b.
  Hypothesis hash_nonneg : forall k, (0 <= hash k)%Z.
  Local Open Scope nat_scope.

  Notation cell := (cell K V).
  Notation map := (MapModel.map K V).

  Lemma keq_refl k : keq k k = true.
  Proof. apply keq_spec; reflexivity. Qed.
  Lemma keq_neq a b : a <> b -> keq a b = false.
  Proof. intros H. destruct (keq a b) eqn:E; [|reflexivity]. apply keq_spec in E. contradiction. Qed.

  Definition ents (oc : option cell) : list (K * V) :=
    match oc with Some c => if cdel c then [] else [(ckey c, cval c)] | None => [] end.
  Definition iter (cs : list (option cell)) : list (K * V) := flat_map ents cs.

  Lemma map_iter_eq (m : map) : map_iter m = iter (cells m).
  Proof. reflexivity. Qed.

  Lemma iter_app a b : iter (a ++ b) = iter a ++ iter b.
  Proof. apply flat_map_app. Qed.

  Lemma iter_in cs k v :
    In (k, v) (iter cs) <-> exists i c, nth_error cs i = Some (Some c) /\ cdel c = false /\ ckey c = k /\ cval c = v.
  Proof.
    unfold iter. rewrite in_flat_map. split.
    - intros (oc & Hin & He). destruct oc as [c|]; [|destruct He].
      apply In_nth_error in Hin. destruct Hin as (i & Hi). exists i, c.
      cbn in He. destruct (cdel c); [destruct He|]. cbn in He. destruct He as [He|[]].
      injection He as -> ->. auto.
    - intros (i & c & Hi & Hd & Hk & Hv). exists (Some c). split; [eapply nth_error_In; eauto|].
      cbn. rewrite Hd. left. congruence.
  Qed.

  Lemma list_set_nth {B} (l : list B) i y l' :
    list_set l i y = Some l' ->
    forall j, nth_error l' j = if j =? i then (if i <? length l then Some y else None) else nth_error l j.
  Proof.
    revert i l'. induction l as [|h t IH]; intros i l' H; [destruct i; discriminate|].
    destruct i as [|i]; cbn in H.
    - injection H as <-. intros [|j]; cbn; reflexivity.
    - destruct (list_set t i y) as [t'|] eqn:E; [|discriminate]. injection H as <-.
      intros [|j]; cbn; [reflexivity|]. rewrite (IH _ _ E). reflexivity.
  Qed.

  Lemma list_set_split {B} (l : list B) i x y :
    nth_error l i = Some x ->
    exists a b, l = a ++ x :: b /\ length a = i /\ list_set l i y = Some (a ++ y :: b).
  Proof.
    intros H. apply nth_error_split in H. destruct H as (a & b & -> & <-). exists a, b.
    split; [reflexivity|]. split; [reflexivity|].
    induction a as [|h t IH]; cbn; [reflexivity|]. rewrite IH. reflexivity.
  Qed.

  (** number of live cells *)
  Definition live (cs : list (option cell)) : nat := length (iter cs).

  Lemma live_le cs : live cs <= length cs.
  Proof.
    unfold live. induction cs as [|c t IH]; [cbn; lia|].
    change (iter (c :: t)) with (ents c ++ iter t). rewrite app_length. cbn [length].
    assert (length (ents c) <= 1) by (destruct c as [c|]; cbn; [destruct (cdel c); cbn|]; lia). lia.
  Qed.

  Lemma exists_free cs :
    live cs < length cs -> exists i oc, i < length cs /\ nth_error cs i = Some oc /\ ents oc = [].
  Proof.
    unfold live. induction cs as [|c t IH]; [cbn; lia|].
    change (iter (c :: t)) with (ents c ++ iter t). rewrite app_length. cbn [length]. intros H.
    destruct (ents c) as [|e es] eqn:E.
    - exists 0, c. cbn. repeat split; [lia|assumption].
    - cbn [length] in H. destruct (IH ltac:(lia)) as (i & oc & Hi & Hn & He).
      exists (S i), oc. cbn. repeat split; [lia|assumption|assumption].
  Qed.

  Definition start (k : K) (cap : nat) : nat := Z.to_nat (Z.rem (hash k) (Z.of_nat cap)).

  Lemma slot_ok k cap : 1 <= cap -> slot hash k cap = Ok (start k cap) /\ start k cap < cap.
  Proof.
    intros H. unfold slot, start.
    pose proof (Z.rem_bound_pos (hash k) (Z.of_nat cap) (hash_nonneg k) ltac:(lia)) as Hb.
    destruct (Z.ltb_spec (Z.rem (hash k) (Z.of_nat cap)) 0); [lia|]. split; [reflexivity|]. lia.
  Qed.

  Definition probe (cap h d : nat) : nat := (h + d) mod cap.

  Lemma probe_lt cap h d : 1 <= cap -> probe cap h d < cap.
  Proof. intros. apply Nat.mod_upper_bound. lia. Qed.
  Lemma probe_0 cap h : h < cap -> probe cap h 0 = h.
  Proof. intros. unfold probe. rewrite Nat.add_0_r. apply Nat.mod_small; lia. Qed.
  Lemma probe_S cap h d : 1 <= cap -> (probe cap h d + 1) mod cap = probe cap h (S d).
  Proof.
    intros. unfold probe. rewrite Nat.add_mod_idemp_l by lia. f_equal. lia.
  Qed.
  Lemma probe_back cap h d : h < cap -> 0 < d -> d <= cap -> probe cap h d = h -> d = cap.
  Proof.
    intros Hh H0 Hd He. unfold probe in He.
    destruct (Nat.lt_ge_cases (h + d) cap).
    - rewrite Nat.mod_small in He by lia. lia.
    - replace (h + d) with ((h + d - cap) + 1 * cap) in He by lia.
      rewrite Nat.mod_add in He by lia.
      rewrite Nat.mod_small in He by lia. lia.
  Qed.
  Lemma probe_cap cap h : h < cap -> probe cap h cap = h.
  Proof.
    intros. unfold probe. replace (h + cap) with (h + 1 * cap) by lia.
    rewrite Nat.mod_add by lia. apply Nat.mod_small; lia.
  Qed.
  Lemma probe_inj cap h d e : d < cap -> e < cap -> probe cap h d = probe cap h e -> d = e.
  Proof.
    intros Hd He H. unfold probe in H.
    assert (Hc : forall x y, x <= y -> y < cap -> (h + x) mod cap = (h + y) mod cap -> x = y).
    { intros x y Hxy Hy Hm.
      pose proof (Nat.div_mod (h + x) cap ltac:(lia)). pose proof (Nat.div_mod (h + y) cap ltac:(lia)).
      set (q1 := (h + x) / cap) in *. set (q2 := (h + y) / cap) in *.
      rewrite Hm in H0. assert (y - x = cap * q2 - cap * q1) by lia.
      rewrite <- Nat.mul_sub_distr_l in H2.
      destruct (q2 - q1) as [|q]; nia. }
    destruct (Nat.le_ge_cases d e); [apply Hc; assumption|symmetry; apply Hc; auto].
  Qed.
  (** every index is hit by the probe sequence *)
  Lemma probe_surj cap h i : h < cap -> i < cap -> exists d, d < cap /\ probe cap h d = i.
  Proof.
    intros Hh Hi. destruct (Nat.le_gt_cases h i).
    - exists (i - h). split; [lia|]. unfold probe. replace (h + (i - h)) with i by lia.
      apply Nat.mod_small; lia.
    - exists (i + cap - h). split; [lia|]. unfold probe.
      replace (h + (i + cap - h)) with (i + 1 * cap) by lia.
      rewrite Nat.mod_add by lia. apply Nat.mod_small; lia.
  Qed.

  (** every live cell is reachable from the home position of its key without crossing NULL *)
  Definition chained (cs : list (option cell)) : Prop :=
    forall i c, nth_error cs i = Some (Some c) -> cdel c = false ->
    exists d, d < length cs /\ i = probe (length cs) (start (ckey c) (length cs)) d /\
      forall d', d' < d -> exists c', nth_error cs (probe (length cs) (start (ckey c) (length cs)) d') = Some (Some c').

  Definition inv (m : map) : Prop :=
    2 * msize m + 1 <= mcap m /\ live (cells m) <= msize m /\ chained (cells m).

  (** ** lookup *)
  Lemma cell_at_ok (cs : list (option cell)) i : i < length cs -> exists oc, cell_at cs i = Ok oc /\ nth_error cs i = Some oc.
  Proof.
    intros H. unfold cell_at. destruct (nth_error cs i) as [oc|] eqn:E; [eauto|].
    apply nth_error_None in E. lia.
  Qed.

  Definition nomatch (cs : list (option cell)) (k : K) (i : nat) : Prop :=
    exists c, nth_error cs i = Some (Some c) /\ live_key keq c k = false.

  Lemma find_loop_spec (cs : list (option cell)) k h : h < length cs ->
    forall fuel d, d < length cs -> length cs <= fuel + d ->
    (forall d', d' < d -> nomatch cs k (probe (length cs) h d')) ->
    exists r, find_loop keq fuel cs k h (probe (length cs) h d) = Ok r /\
    match r with
    | Some i => exists e c, e < length cs /\ i = probe (length cs) h e /\ nth_error cs i = Some (Some c) /\
                  live_key keq c k = true
    | None => exists e, e <= length cs /\ (forall d', d' < e -> nomatch cs k (probe (length cs) h d')) /\
                  (e = length cs \/ nth_error cs (probe (length cs) h e) = Some None)
    end.
  Proof.
    intros Hh. assert (Hcap : 1 <= length cs) by lia.
    induction fuel as [|f IH]; intros d Hd Hf Hn; [lia|].
    cbn [find_loop].
    destruct (cell_at_ok cs (probe (length cs) h d) (probe_lt _ _ _ Hcap)) as (oc & -> & Hoc). cbn [bind].
    destruct oc as [c|].
    - destruct (live_key keq c k) eqn:El.
      + eexists; split; [reflexivity|]. exists d, c. auto.
      + assert (Hn' : forall d', d' < S d -> nomatch cs k (probe (length cs) h d')).
        { intros d' Hd'. destruct (Nat.eq_dec d' d) as [->|]; [exists c; auto|apply Hn; lia]. }
        rewrite probe_S by lia.
        destruct (Nat.eqb_spec (probe (length cs) h (S d)) h) as [He|He].
        * eexists; split; [reflexivity|]. cbn. exists (length cs). split; [lia|].
          pose proof (probe_back (length cs) h (S d) Hh ltac:(lia) ltac:(lia) He) as Hb.
          split; [|left; reflexivity]. intros d' Hd'. apply Hn'. lia.
        * assert (S d <> length cs) by (intros E; apply He; rewrite E; apply probe_cap; lia).
          apply IH; [lia|lia|exact Hn'].
    - eexists; split; [reflexivity|]. exists d. split; [lia|]. auto.
  Qed.

  Lemma map_find_spec (m : map) k : inv m ->
    exists r, map_find keq hash m k = Ok r /\
    match r with
    | Some i => exists c, nth_error (cells m) i = Some (Some c) /\ cdel c = false /\ ckey c = k
    | None => forall v, ~ In (k, v) (iter (cells m))
    end.
  Proof.
    intros (Hsz & Hl & Hch). unfold map_find.
    assert (Hcap : 1 <= mcap m) by lia.
    destruct (slot_ok k (mcap m) Hcap) as (-> & Hs). cbn [bind]. unfold mcap in *.
    destruct (find_loop_spec (cells m) k (start k (length (cells m))) Hs (length (cells m)) 0 ltac:(lia) ltac:(lia))
      as (r & Hr & Hspec); [intros; lia|].
    rewrite probe_0 in Hr by lia. rewrite Hr. exists r. split; [reflexivity|].
    destruct r as [i|].
    - destruct Hspec as (e & c & He & -> & Hn & Hlk). exists c. unfold live_key in Hlk.
      apply andb_prop in Hlk. destruct Hlk as (Hd & Hk). apply keq_spec in Hk.
      destruct (cdel c); [discriminate|]. auto.
    - destruct Hspec as (e & He & Hno & Hend). intros v Hin. apply iter_in in Hin.
      destruct Hin as (i & c & Hi & Hd & Hk & Hv). destruct (Hch i c Hi Hd) as (d & Hdl & Hp & Hbefore).
      rewrite Hk in Hp, Hbefore. subst i.
      assert (Hcase : d < e \/ d = e \/ e < d) by lia. destruct Hcase as [Hlt|[->|Hgt]].
      + destruct (Hno d Hlt) as (c' & Hc' & Hlk). rewrite Hi in Hc'. injection Hc' as <-.
        unfold live_key in Hlk. rewrite Hd, Hk, keq_refl in Hlk. discriminate.
      + destruct Hend as [->|Hend]; [lia|]. rewrite Hi in Hend. discriminate.
      + destruct (Hbefore e Hgt) as (c' & Hc'). destruct Hend as [->|Hend]; [lia|].
        rewrite Hc' in Hend. discriminate.
  Qed.

  Lemma map_get_spec (m : map) k : inv m ->
    exists o, map_get keq hash m k = Ok o /\
    match o with
    | Some v => In (k, v) (iter (cells m))
    | None => forall v, ~ In (k, v) (iter (cells m))
    end.
  Proof.
    intros Hi. unfold map_get. destruct (map_find_spec m k Hi) as (r & -> & Hr). cbn [bind].
    destruct r as [i|]; [|eauto].
    destruct Hr as (c & Hn & Hd & Hk). unfold cell_at. rewrite Hn. cbn [bind]. rewrite Hd.
    eexists; split; [reflexivity|]. apply iter_in. eauto 7.
  Qed.

  (** ** replacing one cell *)
  Lemma chained_set cs i oc c cs' :
    chained cs -> nth_error cs i = Some oc -> list_set cs i (Some c) = Some cs' ->
    (cdel c = false ->
       exists d, d < length cs /\ i = probe (length cs) (start (ckey c) (length cs)) d /\
       forall d', d' < d -> exists c', nth_error cs (probe (length cs) (start (ckey c) (length cs)) d') = Some (Some c')) ->
    chained cs' /\ length cs' = length cs.
  Proof.
    intros Hch Hi Hset Hnew.
    assert (Hlen : length cs' = length cs).
    { destruct (list_set_split cs i oc (Some c) Hi) as (a & b & -> & _ & Hs).
      rewrite Hset in Hs. injection Hs as ->. rewrite !app_length. reflexivity. }
    assert (Hil : i < length cs) by (apply nth_error_Some; congruence).
    pose proof (list_set_nth _ _ _ _ Hset) as Hnth.
    assert (Hmono : forall j c', nth_error cs j = Some (Some c') -> exists c'', nth_error cs' j = Some (Some c'')).
    { intros j c' Hj. rewrite Hnth. destruct (Nat.eqb_spec j i) as [->|]; [|eauto].
      replace (i <? length cs) with true by (symmetry; apply Nat.ltb_lt; lia). eauto. }
    split; [|exact Hlen]. intros j cj Hj Hdj. rewrite Hlen. rewrite Hnth in Hj.
    destruct (Nat.eqb_spec j i) as [->|Hne].
    - replace (i <? length cs) with true in Hj by (symmetry; apply Nat.ltb_lt; lia).
      injection Hj as <-. destruct (Hnew Hdj) as (d & Hd & Hp & Hb). exists d.
      split; [exact Hd|]. split; [exact Hp|]. intros d' Hd'. destruct (Hb d' Hd') as (c' & Hc'). eauto.
    - destruct (Hch j cj Hj Hdj) as (d & Hd & Hp & Hb). exists d.
      split; [exact Hd|]. split; [exact Hp|]. intros d' Hd'. destruct (Hb d' Hd') as (c' & Hc'). eauto.
  Qed.

  (** ** rehashing *)
  Definition full (cs : list (option cell)) : Prop := forall i c, nth_error cs i = Some (Some c) -> cdel c = false.

  Lemma rehash_loop_spec (cs : list (option cell)) h : h < length cs -> (exists i, nth_error cs i = Some None) ->
    forall fuel d, d < length cs -> length cs <= fuel + d ->
    (forall d', d' < d -> exists c, nth_error cs (probe (length cs) h d') = Some (Some c)) ->
    exists e, rehash_loop fuel cs (probe (length cs) h d) = Ok (probe (length cs) h e) /\ e < length cs /\
      nth_error cs (probe (length cs) h e) = Some None /\
      (forall d', d' < e -> exists c, nth_error cs (probe (length cs) h d') = Some (Some c)).
  Proof.
    intros Hh (i0 & Hi0). assert (Hcap : 1 <= length cs) by lia.
    induction fuel as [|f IH]; intros d Hd Hf Hn; [lia|].
    cbn [rehash_loop].
    destruct (cell_at_ok cs (probe (length cs) h d) (probe_lt _ _ _ Hcap)) as (oc & -> & Hoc). cbn [bind].
    destruct oc as [c|].
    - rewrite probe_S by lia.
      assert (Hn' : forall d', d' < S d -> exists c, nth_error cs (probe (length cs) h d') = Some (Some c)).
      { intros d' Hd'. destruct (Nat.eq_dec d' d) as [->|]; [eauto|apply Hn; lia]. }
      assert (S d <> length cs).
      { intros E. assert (Hil : i0 < length cs) by (apply nth_error_Some; congruence).
        destruct (probe_surj (length cs) h i0 Hh Hil) as (d0 & Hd0 & Hp).
        destruct (Hn' d0 ltac:(lia)) as (c' & Hc'). rewrite Hp in Hc'. congruence. }
      apply IH; [lia|lia|exact Hn'].
    - exists d. auto.
  Qed.

  Lemma rehash_all_spec (old : list (option cell)) : forall new,
    1 <= length new -> chained new -> full new -> live new + live old < length new ->
    exists new', rehash_all hash old new = Ok new' /\ chained new' /\ full new' /\
      length new' = length new /\ Permutation (iter new') (iter new ++ iter old).
  Proof.
    induction old as [|oc old IH]; intros new Hcap Hch Hfull Hlive; cbn [rehash_all].
    - exists new. rewrite app_nil_r. auto 6.
    - destruct oc as [c|].
      2:{ apply IH; auto. }
      destruct (cdel c) eqn:Hd.
      + destruct (IH new Hcap Hch Hfull) as (new' & H1 & H2 & H3 & H4 & H5).
        { unfold live in *. cbn in Hlive. rewrite Hd in Hlive. exact Hlive. }
        exists new'. repeat (split; [assumption|]). cbn. rewrite Hd. exact H5.
      + destruct (slot_ok (ckey c) (length new) Hcap) as (-> & Hs). cbn [bind].
        assert (Hnull : exists i, nth_error new i = Some None).
        { destruct (exists_free new ltac:(lia)) as (i & oc & Hi & Hn & He). exists i.
          destruct oc as [c'|]; [|assumption]. cbn in He. rewrite (Hfull _ _ Hn) in He. discriminate. }
        destruct (rehash_loop_spec new _ Hs Hnull (length new) 0 ltac:(lia) ltac:(lia)) as (e & He1 & He2 & He3 & He4);
          [intros; lia|].
        rewrite probe_0 in He1 by lia. rewrite He1. cbn [bind].
        unfold write_cell.
        destruct (list_set_split new _ None (Some c) He3) as (a & b & Hab & Hla & Hset).
        rewrite Hset. cbn [bind].
        destruct (chained_set new _ None c _ Hch He3 Hset) as (Hch' & Hlen').
        { intros _. exists e. split; [exact He2|]. split; [reflexivity|]. exact He4. }
        assert (Hfull' : full (a ++ Some c :: b)).
        { intros j cj Hj. rewrite (list_set_nth _ _ _ _ Hset) in Hj.
          destruct (j =? _) eqn:Ej.
          - destruct (_ <? _); [injection Hj as <-; assumption|discriminate].
          - eapply Hfull; eauto. }
        assert (Hit : iter (a ++ Some c :: b) = iter a ++ (ckey c, cval c) :: iter b).
        { rewrite iter_app. cbn. rewrite Hd. reflexivity. }
        assert (Hit0 : iter new = iter a ++ iter b).
        { rewrite Hab, iter_app. reflexivity. }
        destruct (IH (a ++ Some c :: b)) as (new' & H1 & H2 & H3 & H4 & H5); try assumption; try lia.
        { unfold live in *. rewrite Hit, app_length. cbn [length]. rewrite Hit0, app_length in Hlive.
          cbn in Hlive. rewrite Hd in Hlive. cbn in Hlive. fold (iter old) in Hlive. rewrite Hlen'. lia. }
        exists new'. split; [exact H1|]. split; [exact H2|]. split; [exact H3|]. split; [lia|].
        rewrite H5, Hit, Hit0. cbn. rewrite Hd. cbn. fold (iter old).
        rewrite <- app_assoc. cbn [app]. rewrite <- !app_assoc.
        apply Permutation_app_head.
        replace ((ckey c, cval c) :: iter b ++ iter old) with (((ckey c, cval c) :: iter b) ++ iter old) by reflexivity.
        rewrite (Permutation_cons_append (iter b) (ckey c, cval c)), <- app_assoc. reflexivity.
  Qed.

  Lemma iter_nones n : iter (repeat None n) = [].
  Proof. induction n; cbn; auto. Qed.

  Lemma nth_nones n i (x : cell) : nth_error (repeat None n) i <> Some (Some x).
  Proof.
    revert i. induction n as [|n IH]; intros [|i]; cbn; try discriminate. apply IH.
  Qed.

  Lemma update_capacity_spec (m : map) cap :
    chained (cells m) -> live (cells m) <= msize m -> 2 * msize m + 1 <= cap ->
    exists m', update_capacity hash m cap = Ok m' /\ inv m' /\
      Permutation (iter (cells m')) (iter (cells m)) /\ msize m' = msize m /\ mcap m' = cap.
  Proof.
    intros Hch Hl Hc. unfold update_capacity.
    destruct (rehash_all_spec (cells m) (repeat None cap)) as (cs & -> & H1 & H2 & H3 & H4).
    - rewrite repeat_length. lia.
    - intros i c Hi. destruct (nth_nones _ _ _ Hi).
    - intros i c Hi. destruct (nth_nones _ _ _ Hi).
    - unfold live at 1. rewrite iter_nones, repeat_length. cbn. lia.
    - cbn [bind]. rewrite iter_nones in H4. cbn [app] in H4. rewrite repeat_length in H3.
      eexists; split; [reflexivity|]. unfold inv, mcap; cbn [cells msize].
      assert (live cs = live (cells m)) by (unfold live; apply Permutation_length; exact H4).
      split; [split; [lia|split; [lia|assumption]]|]. auto.
  Qed.

  (** ** add *)
  Lemma add_loop_spec (cs : list (option cell)) k h : h < length cs -> live cs < length cs ->
    forall fuel d, d < length cs -> length cs <= fuel + d ->
    (forall d', d' < d -> exists c, nth_error cs (probe (length cs) h d') = Some (Some c) /\ cdel c = false /\ ckey c <> k) ->
    exists e oc, add_loop keq fuel cs k (probe (length cs) h d) = Ok (probe (length cs) h e) /\ e < length cs /\
      nth_error cs (probe (length cs) h e) = Some oc /\
      (ents oc = [] \/ exists v, ents oc = [(k, v)]) /\
      (forall d', d' < e -> exists c, nth_error cs (probe (length cs) h d') = Some (Some c) /\ cdel c = false /\ ckey c <> k).
  Proof.
    intros Hh Hlive. assert (Hcap : 1 <= length cs) by lia.
    induction fuel as [|f IH]; intros d Hd Hf Hn; [lia|].
    cbn [add_loop].
    destruct (cell_at_ok cs (probe (length cs) h d) (probe_lt _ _ _ Hcap)) as (oc & -> & Hoc). cbn [bind].
    destruct oc as [c|].
    - destruct (cdel c) eqn:Ed.
      { exists d, (Some c). do 3 (split; [auto|]). split; [left; cbn; rewrite Ed; reflexivity|exact Hn]. }
      destruct (keq (ckey c) k) eqn:Ek.
      { exists d, (Some c). do 3 (split; [auto|]). split; [|exact Hn].
        right. exists (cval c). cbn. rewrite Ed. apply keq_spec in Ek. congruence. }
      assert (Hn' : forall d', d' < S d -> exists c, nth_error cs (probe (length cs) h d') = Some (Some c) /\ cdel c = false /\ ckey c <> k).
      { intros d' Hd'. destruct (Nat.eq_dec d' d) as [->|]; [|apply Hn; lia].
        exists c. split; [assumption|]. split; [assumption|]. intros E. rewrite E, keq_refl in Ek. discriminate. }
      rewrite probe_S by lia.
      assert (S d <> length cs).
      { intros E. destruct (exists_free cs Hlive) as (i0 & oc & Hil & Hi0 & He).
        destruct (probe_surj (length cs) h i0 Hh Hil) as (d0 & Hd0 & Hp).
        destruct (Hn' d0 ltac:(lia)) as (c' & Hc' & Hdc & _). rewrite Hp, Hi0 in Hc'. injection Hc' as ->.
        cbn in He. rewrite Hdc in He. discriminate. }
      apply IH; [lia|lia|exact Hn'].
    - exists d, None. do 3 (split; [auto|]). split; [left; reflexivity|exact Hn].
  Qed.

  Lemma map_add_spec (m : map) k v : inv m ->
    exists m' rest old, map_add keq hash m k v = Ok m' /\ inv m' /\
      Permutation (iter (cells m)) (old ++ rest) /\
      Permutation (iter (cells m')) ((k, v) :: rest) /\
      (old = [] \/ exists v0, old = [(k, v0)]) /\
      (full (cells m) -> full (cells m') /\ (old = [] -> forall v0, ~ In (k, v0) rest)).
  Proof.
    intros Hinv. assert (Hinv0 := Hinv). destruct Hinv as (Hsz & Hl & Hch).
    unfold map_add. assert (Hcap : 1 <= mcap m) by lia.
    destruct (slot_ok k (mcap m) Hcap) as (-> & Hs). cbn [bind]. unfold mcap in *.
    destruct (add_loop_spec (cells m) k _ Hs ltac:(lia) (length (cells m)) 0 ltac:(lia) ltac:(lia))
      as (e & oc & He1 & He2 & He3 & He4 & He5); [intros; lia|].
    rewrite probe_0 in He1 by lia. rewrite He1. cbn [bind]. unfold write_cell.
    destruct (list_set_split (cells m) _ oc (Some (mkcell k v false)) He3) as (a & b & Hab & Hla & Hset).
    rewrite Hset. cbn [bind].
    destruct (chained_set (cells m) _ oc (mkcell k v false) _ Hch He3 Hset) as (Hch' & Hlen').
    { intros _. cbn [ckey]. exists e. split; [exact He2|]. split; [reflexivity|].
      intros d' Hd'. destruct (He5 d' Hd') as (c' & Hc' & _). eauto. }
    set (cs' := a ++ Some (mkcell k v false) :: b) in *.
    assert (Hit' : Permutation (iter cs') ((k, v) :: (iter a ++ iter b))).
    { unfold cs'. rewrite iter_app. cbn. symmetry. apply Permutation_middle. }
    assert (Hit : Permutation (iter (cells m)) (ents oc ++ (iter a ++ iter b))).
    { rewrite Hab, iter_app. cbn. rewrite !app_assoc. apply Permutation_app_tail. apply Permutation_app_comm. }
    assert (Hfull : full (cells m) -> full cs' /\ (ents oc = [] -> forall v0, ~ In (k, v0) (iter a ++ iter b))).
    { intros Hf. split.
      - intros j cj Hj. rewrite (list_set_nth _ _ _ _ Hset) in Hj.
        destruct (j =? _); [destruct (_ <? _); [injection Hj as <-; reflexivity|discriminate]|]. eapply Hf; eauto.
      - intros Hoc v0 Hin.
        assert (Hin' : exists i c, i <> length a /\ nth_error (cells m) i = Some (Some c) /\ cdel c = false /\ ckey c = k).
        { apply in_app_iff in Hin. destruct Hin as [Hin|Hin]; apply iter_in in Hin;
            destruct Hin as (i & c & Hi & Hd & Hk & _).
          - assert (i < length a) by (apply nth_error_Some; congruence).
            exists i, c. split; [lia|]. split; [|auto]. rewrite Hab, nth_error_app1 by lia. exact Hi.
          - exists (length a + S i), c. split; [lia|]. split; [|auto].
            rewrite Hab, nth_error_app2 by lia. replace (length a + S i - length a) with (S i) by lia. exact Hi. }
        destruct Hin' as (i & c & Hne & Hi & Hd & Hk).
        destruct (Hch i c Hi Hd) as (d & Hdl & Hp & Hb). rewrite Hk in Hp, Hb.
        assert (Hcase : d < e \/ d = e \/ e < d) by lia. destruct Hcase as [Hlt|[->|Hgt]].
        + destruct (He5 d Hlt) as (c' & Hc' & _ & Hk'). rewrite <- Hp, Hi in Hc'. injection Hc' as <-. congruence.
        + congruence.
        + destruct (Hb e Hgt) as (c' & Hc'). rewrite He3 in Hc'. injection Hc' as ->.
          assert (Hdc : cdel c' = false) by (eapply Hf; eauto).
          cbn in Hoc. rewrite Hdc in Hoc. discriminate. }
    assert (Hoc1 : length (ents oc) <= 1) by (destruct He4 as [->|(? & ->)]; cbn; lia).
    assert (Hl' : live cs' <= msize m + 1).
    { apply Permutation_length in Hit, Hit'. unfold live in *. rewrite Hit'. rewrite app_length in Hit. cbn [length]. lia. }
    assert (Hcl : length cs' = length (cells m)) by exact Hlen'.
    cbn [msize].
    destruct (Nat.leb_spec (length (cells m)) (2 * (msize m + 1 + 1) - 1)) as [Hle|Hgt].
    - destruct (update_capacity_spec (mkmap cs' (msize m + 1)) (2 * (length (cells m) + 1) - 1) Hch' Hl') as (m' & Hu & Hi' & Hp' & _ & _).
      { cbn [msize]. lia. }
      exists m', (iter a ++ iter b), (ents oc). split; [exact Hu|]. split; [exact Hi'|]. split; [exact Hit|].
      split; [rewrite Hp'; exact Hit'|]. split; [exact He4|].
      intros Hf. split; [|apply Hfull; exact Hf].
      unfold update_capacity in Hu. cbn [cells] in Hu.
      destruct (rehash_all_spec cs' (repeat None (2 * (length (cells m) + 1) - 1))) as (cs2 & Hr & _ & Hf2 & _).
      + rewrite repeat_length. lia.
      + intros i c Hi. destruct (nth_nones _ _ _ Hi).
      + intros i c Hi. destruct (nth_nones _ _ _ Hi).
      + unfold live at 1. rewrite iter_nones, repeat_length. cbn. lia.
      + rewrite Hr in Hu. cbn in Hu. injection Hu as <-. exact Hf2.
    - exists (mkmap cs' (msize m + 1)), (iter a ++ iter b), (ents oc). cbn [cells].
      split; [reflexivity|]. split; [split; [|split]; unfold mcap; cbn [cells msize]; [lia|assumption|assumption]|].
      split; [exact Hit|]. split; [exact Hit'|]. split; [exact He4|exact Hfull].
  Qed.

  (** ** remove *)
  Lemma map_remove_spec (m : map) k : inv m ->
    exists m', map_remove keq hash m k = Ok m' /\ inv m' /\
      ((m' = m /\ forall v, ~ In (k, v) (iter (cells m))) \/
       exists v, Permutation (iter (cells m)) ((k, v) :: iter (cells m'))).
  Proof.
    intros Hinv. assert (Hinv0 := Hinv). destruct Hinv as (Hsz & Hl & Hch).
    unfold map_remove. destruct (map_find_spec m k Hinv0) as (r & -> & Hr). cbn [bind].
    destruct r as [i|]; [|exists m; auto].
    destruct Hr as (c & Hn & Hd & Hk). unfold cell_at. rewrite Hn. cbn [bind]. unfold write_cell.
    destruct (list_set_split (cells m) i (Some c) (Some (mkcell (ckey c) (cval c) true)) Hn) as (a & b & Hab & Hla & Hset).
    rewrite Hset. cbn [bind msize].
    destruct (chained_set (cells m) _ _ (mkcell (ckey c) (cval c) true) _ Hch Hn Hset) as (Hch' & Hlen').
    { intros H; discriminate H. }
    set (cs' := a ++ Some (mkcell (ckey c) (cval c) true) :: b) in *.
    assert (Hit : Permutation (iter (cells m)) ((k, cval c) :: iter cs')).
    { rewrite Hab. unfold cs'. rewrite !iter_app. cbn. rewrite Hd. cbn. rewrite Hk.
      symmetry. apply Permutation_middle. }
    assert (Hl' : live cs' <= msize m - 1 /\ 1 <= msize m).
    { apply Permutation_length in Hit. unfold live in *. cbn in Hit. lia. }
    destruct Hl' as (Hl' & Hm1).
    destruct (Nat.ltb_spec (2 * (2 * (msize m - 1 + 1) - 1)) (mcap m)) as [Hlt|Hge].
    - destruct (update_capacity_spec (mkmap cs' (msize m - 1)) (2 * (msize m - 1 + 1) - 1) Hch' Hl') as (m' & Hu & Hi' & Hp' & _ & _).
      { cbn [msize]. lia. }
      exists m'. split; [exact Hu|]. split; [exact Hi'|]. right. exists (cval c). rewrite Hp'. exact Hit.
    - exists (mkmap cs' (msize m - 1)). split; [reflexivity|].
      split; [split; [|split]; unfold mcap in *; cbn [cells msize]; [rewrite Hlen'; lia|assumption|assumption]|].
      right. exists (cval c). exact Hit.
  Qed.

  (** ** histories *)
  Definition to_mop (o : upd K V) : mop K V :=
    match o with UAdd k v => MAdd k v | URemove k => MRemove k end.

  Lemma new_inv : inv new_map.
  Proof.
    unfold inv, new_map, mcap; cbn. split; [lia|]. split; [lia|].
    intros [|[|i]] c Hi; discriminate.
  Qed.

  Lemma run_inv ops : forall m, inv m -> exists m', map_run keq hash m (List.map to_mop ops) = Ok m' /\ inv m'.
  Proof.
    induction ops as [|o ops IH]; intros m Hm; cbn [List.map map_run]; [eauto|].
    destruct o as [k v|k]; cbn [to_mop map_step].
    - destruct (map_add_spec m k v Hm) as (m' & _ & _ & -> & Hi & _). cbn [bind]. apply IH; exact Hi.
    - destruct (map_remove_spec m k Hm) as (m' & -> & Hi & _). cbn [bind]. apply IH; exact Hi.
  Qed.

  (** weak refinement, every history: present keys are found; what is found was added at some time *)
  Definition sound (m : map) (f : K -> option V) (added : K -> V -> Prop) : Prop :=
    (forall k v, In (k, v) (iter (cells m)) -> added k v) /\
    (forall k v, f k = Some v -> exists v', In (k, v') (iter (cells m))).

  Lemma add_sound m f added k v m' :
    inv m -> sound m f added -> map_add keq hash m k v = Ok m' ->
    sound m' (upd_step keq f (UAdd k v)) (fun k' v' => added k' v' \/ (k' = k /\ v' = v)).
  Proof.
    intros Hi (Hs1 & Hs2) Ha. destruct (map_add_spec m k v Hi) as (m'' & rest & old & Ha' & _ & Hp & Hp' & Ho & _).
    rewrite Ha in Ha'. injection Ha' as <-. split.
    - intros k' v' Hin. apply (Permutation_in _ Hp') in Hin. destruct Hin as [E|Hin].
      + injection E as <- <-. auto.
      + left. apply Hs1. apply (Permutation_in _ (Permutation_sym Hp)). apply in_app_iff; auto.
    - intros k' v' Hf. cbn in Hf. destruct (keq k k') eqn:Ek.
      + apply keq_spec in Ek. subst k'. exists v. apply (Permutation_in _ (Permutation_sym Hp')). left; reflexivity.
      + destruct (Hs2 _ _ Hf) as (v1 & Hin). exists v1. apply (Permutation_in _ (Permutation_sym Hp')). right.
        apply (Permutation_in _ Hp) in Hin. apply in_app_iff in Hin. destruct Hin as [Hin|]; [|assumption].
        destruct Ho as [->|(v0 & ->)]; [destruct Hin|]. destruct Hin as [E|[]]. injection E as <- _.
        rewrite keq_refl in Ek. discriminate.
  Qed.

  Lemma remove_sound m f added k m' :
    inv m -> sound m f added -> map_remove keq hash m k = Ok m' ->
    sound m' (upd_step keq f (URemove k)) added.
  Proof.
    intros Hi (Hs1 & Hs2) Ha. destruct (map_remove_spec m k Hi) as (m'' & Ha' & _ & Hcase).
    rewrite Ha in Ha'. injection Ha' as <-. destruct Hcase as [(-> & Hno)|(v & Hp)].
    - split; [assumption|]. intros k' v' Hf. cbn in Hf. destruct (keq k k'); [discriminate|]. eauto.
    - split.
      + intros k' v' Hin. apply Hs1. apply (Permutation_in _ (Permutation_sym Hp)). right; assumption.
      + intros k' v' Hf. cbn in Hf. destruct (keq k k') eqn:Ek; [discriminate|].
        destruct (Hs2 _ _ Hf) as (v1 & Hin). apply (Permutation_in _ Hp) in Hin.
        destruct Hin as [E|Hin]; [|eauto]. injection E as <- _. rewrite keq_refl in Ek. discriminate.
  Qed.

  Lemma run_sound ops : forall m f added,
    inv m -> sound m f added ->
    forall m', map_run keq hash m (List.map to_mop ops) = Ok m' ->
    sound m' (fold_left (upd_step keq) ops f) (fun k v => added k v \/ In (UAdd k v) ops).
  Proof.
    induction ops as [|o ops IH]; intros m f added Hi Hs m' Hr; cbn [List.map map_run fold_left] in *.
    - injection Hr as <-. destruct Hs as (H1 & H2). split; [|assumption]. intros; left; auto.
    - destruct o as [k v|k]; cbn [to_mop map_step] in Hr.
      + destruct (map_add_spec m k v Hi) as (m1 & _ & _ & Ha & Hi1 & _). rewrite Ha in Hr. cbn [bind] in Hr.
        pose proof (add_sound _ _ _ _ _ _ Hi Hs Ha) as Hs1.
        destruct (IH _ _ _ Hi1 Hs1 _ Hr) as (H1 & H2). split; [|exact H2].
        intros k' v' Hin. destruct (H1 _ _ Hin) as [[?|(-> & ->)]|?]; cbn; auto.
      + destruct (map_remove_spec m k Hi) as (m1 & Ha & Hi1 & _). rewrite Ha in Hr. cbn [bind] in Hr.
        pose proof (remove_sound _ _ _ _ _ Hi Hs Ha) as Hs1.
        destruct (IH _ _ _ Hi1 Hs1 _ Hr) as (H1 & H2). split; [|exact H2].
        intros k' v' Hin. destruct (H1 _ _ Hin) as [?|?]; cbn; auto.
  Qed.

  (** strong refinement for tidy histories *)
  Definition exact (m : map) (f : K -> option V) : Prop :=
    NoDup (List.map fst (iter (cells m))) /\ (forall k v, In (k, v) (iter (cells m)) <-> f k = Some v).

  Lemma nodup_perm_in (l rest : list (K * V)) k v :
    NoDup (List.map fst l) -> Permutation l ((k, v) :: rest) ->
    NoDup (List.map fst rest) /\ forall v', ~ In (k, v') rest.
  Proof.
    intros Hn Hp. apply (Permutation_map fst) in Hp. cbn in Hp.
    apply (Permutation_NoDup Hp) in Hn. inversion Hn as [|? ? Hni Hn']; subst. split; [assumption|].
    intros v' Hin. apply Hni. apply (in_map fst) in Hin. exact Hin.
  Qed.

  Lemma add_exact m f k v m' :
    inv m -> exact m f -> map_add keq hash m k v = Ok m' -> full (cells m) \/ f k = None ->
    exact m' (upd_step keq f (UAdd k v)) /\ (full (cells m) -> full (cells m')).
  Proof.
    intros Hi (Hnd & He) Ha Hg.
    destruct (map_add_spec m k v Hi) as (m'' & rest & old & Ha' & _ & Hp & Hp' & Ho & Hf).
    rewrite Ha in Ha'. injection Ha' as <-. split; [|intros H; apply Hf; exact H].
    assert (Hrest : NoDup (List.map fst rest) /\ forall v', ~ In (k, v') rest).
    { destruct Ho as [->|(v0 & ->)].
      - cbn in Hp. split; [eapply Permutation_NoDup; [apply Permutation_map; exact Hp|assumption]|].
        destruct Hg as [Hg|Hg]; [apply Hf; auto|].
        intros v' Hin. apply (Permutation_in _ (Permutation_sym Hp)) in Hin. apply He in Hin. congruence.
      - eapply nodup_perm_in; eauto. }
    destruct Hrest as (Hnr & Hno). split.
    - eapply Permutation_NoDup; [apply Permutation_sym, Permutation_map; exact Hp'|]. cbn.
      constructor; [|assumption]. intros Hin. apply in_map_iff in Hin. destruct Hin as ((k' & v') & E & Hin).
      cbn in E. subst k'. eapply Hno; eauto.
    - intros k' v'. cbn. split.
      + intros Hin. apply (Permutation_in _ Hp') in Hin. destruct Hin as [E|Hin].
        * injection E as <- <-. rewrite keq_refl. reflexivity.
        * rewrite keq_neq; [|intros <-; eapply Hno; eauto]. apply He.
          apply (Permutation_in _ (Permutation_sym Hp)), in_app_iff; auto.
      + intros Hf'. apply (Permutation_in _ (Permutation_sym Hp')).
        destruct (keq k k') eqn:Ek.
        * apply keq_spec in Ek. subst. injection Hf' as <-. left; reflexivity.
        * right. apply He in Hf'. apply (Permutation_in _ Hp), in_app_iff in Hf'. destruct Hf' as [Hin|]; [|assumption].
          destruct Ho as [->|(v0 & ->)]; [destruct Hin|]. destruct Hin as [E|[]]. injection E as <- _.
          rewrite keq_refl in Ek. discriminate.
  Qed.

  Lemma remove_exact m f k m' :
    inv m -> exact m f -> map_remove keq hash m k = Ok m' ->
    exact m' (upd_step keq f (URemove k)) /\ (f k = None -> m' = m).
  Proof.
    intros Hi (Hnd & He) Ha. destruct (map_remove_spec m k Hi) as (m'' & Ha' & _ & Hcase).
    rewrite Ha in Ha'. injection Ha' as <-. destruct Hcase as [(-> & Hno)|(v & Hp)].
    - split; [|auto]. split; [assumption|]. intros k' v'. cbn. rewrite He.
      destruct (keq k k') eqn:Ek; [|reflexivity]. apply keq_spec in Ek. subst k'.
      split; [|discriminate]. intros Hf. apply He in Hf. destruct (Hno _ Hf).
    - destruct (nodup_perm_in _ _ _ _ Hnd Hp) as (Hn' & Hno). split.
      + split; [assumption|]. intros k' v'. cbn. split.
        * intros Hin. rewrite keq_neq; [|intros <-; eapply Hno; eauto]. apply He.
          apply (Permutation_in _ (Permutation_sym Hp)). right; assumption.
        * destruct (keq k k') eqn:Ek; [discriminate|]. intros Hf. apply He, (Permutation_in _ Hp) in Hf.
          destruct Hf as [E|]; [|assumption]. injection E as <- _. rewrite keq_refl in Ek. discriminate.
      + intros Hf. assert (In (k, v) (iter (cells m))) as Hin by (apply (Permutation_in _ (Permutation_sym Hp)); left; reflexivity).
        apply He in Hin. congruence.
  Qed.

  Lemma run_exact ops : forall removed m f,
    inv m -> exact m f -> (removed = false -> full (cells m)) -> tidy_from keq removed f ops ->
    exists m', map_run keq hash m (List.map to_mop ops) = Ok m' /\ inv m' /\
      exact m' (fold_left (upd_step keq) ops f).
  Proof.
    induction ops as [|o ops IH]; intros removed m f Hi He Hrm Ht; cbn [List.map map_run fold_left] in *.
    - eauto.
    - destruct Ht as (Hg & Ht). destruct o as [k v|k]; cbn [to_mop map_step].
      + destruct (map_add_spec m k v Hi) as (m1 & _ & _ & Ha & Hi1 & _). rewrite Ha. cbn [bind].
        destruct (add_exact m f k v m1 Hi He Ha) as (He1 & Hf1); [destruct Hg; auto|].
        apply (IH removed); auto.
      + destruct (map_remove_spec m k Hi) as (m1 & Ha & Hi1 & _). rewrite Ha. cbn [bind].
        destruct (remove_exact m f k m1 Hi He Ha) as (He1 & Hsame).
        apply (IH (removed || match f k with Some _ => true | None => false end)); auto.
        intros Hb. apply orb_false_elim in Hb. destruct Hb as (Hr0 & Hb).
        destruct (f k); [discriminate|]. rewrite Hsame by reflexivity. auto.
  Qed.

  Lemma new_exact : exact new_map (fun _ => None).
  Proof. split; [constructor|]. intros k v. cbn. split; [intros []|discriminate]. Qed.

  Lemma exact_get m f k : inv m -> exact m f -> map_get keq hash m k = Ok (f k).
  Proof.
    intros Hi (Hnd & He). destruct (map_get_spec m k Hi) as (o & -> & Ho). f_equal.
    destruct o as [v|].
    - apply He in Ho. congruence.
    - destruct (f k) as [v|] eqn:E; [|reflexivity]. apply He in E. destruct (Ho _ E).
  Qed.

  Lemma tidy_history ops : tidy keq ops ->
    exists m, map_run keq hash new_map (List.map to_mop ops) = Ok m /\
      (forall k, map_get keq hash m k = Ok (latest keq ops k)) /\
      NoDup (List.map fst (map_iter m)) /\
      (forall k v, In (k, v) (map_iter m) <-> latest keq ops k = Some v).
  Proof.
    intros Ht. destruct (run_exact ops false new_map (fun _ => None)) as (m & Hr & Hi & He).
    - apply new_inv.
    - apply new_exact.
    - intros _ [|[|i]] c Hc; discriminate.
    - exact Ht.
    - exists m. split; [exact Hr|]. split; [intros; apply exact_get; assumption|]. exact He.
  Qed.

  Lemma any_history ops :
    exists m, map_run keq hash new_map (List.map to_mop ops) = Ok m /\
      forall k, exists o, map_get keq hash m k = Ok o /\
        (latest keq ops k <> None -> o <> None) /\
        (forall v, o = Some v -> In (UAdd k v) ops).
  Proof.
    destruct (run_inv ops new_map new_inv) as (m & Hr & Hi). exists m. split; [exact Hr|].
    pose proof (run_sound ops new_map (fun _ => None) (fun _ _ => False) new_inv) as Hs.
    destruct (Hs) with (m' := m) as (H1 & H2); [split; [intros k v []|discriminate]|exact Hr|].
    intros k. destruct (map_get_spec m k Hi) as (o & Hg & Ho). exists o. split; [exact Hg|]. split.
    - intros Hl Hn. subst o. fold (latest keq ops) in H2. destruct (latest keq ops k) as [v|] eqn:E; [|congruence].
      destruct (H2 _ _ E) as (v' & Hin). destruct (Ho _ Hin).
    - intros v ->. destruct (H1 _ _ Ho) as [[]|]; assumption.
  Qed.

  Lemma add_only_tidy (ops : list (upd K V)) : (forall k, ~ In (URemove k) ops) -> tidy keq ops.
  Proof.
    unfold tidy. generalize (fun _ : K => @None V). induction ops as [|o ops IH]; intros f H; [exact I|].
    cbn. destruct o as [k v|k].
    - split; [left; reflexivity|]. apply IH. intros k' Hin. apply (H k'). right; assumption.
    - destruct (H k). left; reflexivity.
  Qed.
End Proofs.
