(** Proofs for C35 and C36: functions made of expression code between jumps and labels are orderly *)
From Verif Require Import Base ImmcModel ImmcSem ImmcgenModel LabelSpec LabelProofs RegallocModel RegSpec RegProofs RegProofs2 RegProofs6 OrderProofs.
Local Open Scope Z_scope.

(** the code of an expression, and the jumps or the single other instruction after it *)
Definition item := (list immc * list immc)%type.
Definition item_code (k : item) : list immc := fst k ++ snd k.
(** the label an item ends with: jumps from other items go there *)
Definition marks (k : item) : list name :=
  match k with
  | ([], [IMMC_LABEL _ _ n]) => [n]
  | (cs, []) => match last_label cs with Some n => [n] | None => [] end
  | _ => []
  end.
Definition ok_item (P : name -> Prop) (k : item) (n0 n1 : Z) : Prop :=
  exists A R, code n0 (fst k) n1 A R /\ Forall (fun c => writes c = None /\ incl (reads c) A /\ forall n, goes_to c = Some n -> P n) (snd k)
    /\ (R = [] \/ (exists r, A = [r]) \/ exists c js, snd k = c :: js /\ incl R (reads c)).
Inductive ok_items (P : name -> Prop) : list item -> Z -> Z -> Prop :=
| ok_nil n : ok_items P [] n n
| ok_cons k l n0 n1 n2 : ok_item P k n0 n1 -> ok_items P l n1 n2 -> ok_items P (k :: l) n0 n2.
Notation codes := (flat_map item_code).
Notation all_marks := (flat_map marks).

Lemma last_label_split cs n : last_label cs = Some n -> exists t v l, cs = l ++ [IMMC_LABEL t v n].
Proof.
  unfold last_label. intros H. destruct (rev cs) as [| c r] eqn:E; [discriminate H |]. destruct c as [| | | t v m]; try discriminate H. injection H as ->.
  exists t, v, (rev r). rewrite <- (rev_involutive cs), E. reflexivity.
Qed.
Lemma marks_last k n : In n (marks k) -> exists t v l, item_code k = l ++ [IMMC_LABEL t v n].
Proof.
  destruct k as [cs js]. unfold marks, item_code. cbn [fst snd]. destruct js as [| c js].
  - rewrite app_nil_r. intros I. assert (I' : In n (match last_label cs with Some n => [n] | None => [] end)) by (destruct cs; exact I). destruct (last_label cs) as [m |] eqn:E; [| destruct I']. destruct I' as [<- | []]. now apply last_label_split.
  - destruct cs as [| c' cs]; [| intros []]. destruct c as [| | | t v m]; try (intros []). destruct js; [| intros []]. intros [<- | []]. exists t, v, []. reflexivity.
Qed.
Lemma marks_jump k n c : In n (marks k) -> In c (snd k) -> goes_to c = None.
Proof.
  destruct k as [cs js]. unfold marks. cbn [snd]. destruct js as [| c0 js]; [intros _ [] |]. destruct cs as [| c' cs]; [| intros []]. destruct c0 as [| | | t v m]; try (intros []). destruct js; [| intros []]. intros _ [<- | []]. reflexivity.
Qed.

(** * One item *)
Section Item.
Variables (P : name -> Prop) (k : item) (n0 n1 : Z).
Hypothesis Ok : ok_item P k n0 n1.
Let K := item_code k.
Hypothesis ND : NoDup (labels K).
Hypothesis Out : forall c n, In c (snd k) -> goes_to c = Some n -> ~ In n (labels K).
Lemma item_sits : sits K 0 (fst k).
Proof. intros p c E. unfold K, item_code. rewrite nth_error_app1; [exact E |]. apply nth_error_Some. cbn. congruence. Qed.
Lemma item_after p c : nth_error K p = Some c -> (length (fst k) <= p)%nat -> In c (snd k).
Proof. intros E B. unfold K, item_code in E. rewrite nth_error_app2 in E by exact B. eapply nth_error_In, E. Qed.
Lemma item_live : forall p r, live K p r -> written K 0 p r /\ n0 < r <= n1.
Proof.
  destruct Ok as (A & R & C & F & O). pose proof (code_basic K _ _ _ _ _ C 0 item_sits) as [X1 X2 X3 X4 X5]. cbn [Nat.add] in *. rewrite Forall_forall in F.
  assert (After : forall p r, live K p r -> (length (fst k) <= p)%nat -> In r A).
  { intros p r L. induction L as [p c r E I | p q c r E W Fl L IH]; intros B; pose proof (item_after _ _ E B) as I'.
    - apply (F _ I'), I.
    - apply IH. destruct Fl as (c' & E' & [(_ & ->) | (n & G & La)]); [lia |]. rewrite E in E'. injection E' as <-. destruct (Out c n I' G). eapply label_in, La. }
  assert (So : sound K n0 0 (length (fst k))).
  { apply (code_sound K ND _ _ _ _ _ C 0 item_sits); cbn [Nat.add].
    - intros r L. right. eapply After; [exact L | lia].
    - intros s I. destruct O as [-> | [(r & ->) | (c & js & E & S)]]; [destruct I | |].
      + right. intros t L. apply After in L; [| lia]. apply X2 in I. destruct L as [<- | []]. destruct I as [<- | []]. reflexivity.
      + left. apply live_read with c; [| auto]. unfold K, item_code. rewrite nth_error_app2 by lia. rewrite Nat.sub_diag, E. reflexivity. }
  intros p r L. assert (G : written K 0 p r).
  { destruct (Nat.le_gt_cases p (length (fst k))) as [B | B].
    - destruct (so_live _ _ _ _ So p r ltac:(lia) L) as [[B1 L'] | H]; [| exact H]. apply After in L'; [| lia]. apply X3 in L'. lia.
    - apply After in L; [| lia]. apply X3 in L as [_ L]. eapply written_more; [exact L | lia | lia]. }
  split; [exact G |]. destruct G as (q & c & Q & E & W). destruct (Nat.lt_ge_cases q (length (fst k))) as [B | B].
  - apply X4. exists q, c. split; [lia | auto].
  - pose proof (item_after _ _ E B) as I. apply F in I. destruct I. congruence.
Qed.
Lemma item_writes : writes_in K n0 n1 0 (length K).
Proof using Ok.
  clear Out ND.
  destruct Ok as (A & R & C & F & O). pose proof (code_basic K _ _ _ _ _ C 0 item_sits) as [X1 X2 X3 X4 X5]. cbn [Nat.add] in *. rewrite Forall_forall in F.
  intros r (q & c & Q & E & W). destruct (Nat.lt_ge_cases q (length (fst k))) as [B | B].
  - apply X4. exists q, c. split; [lia | auto].
  - pose proof (item_after _ _ E B) as I. apply F in I. destruct I. congruence.
Qed.
Lemma item_mono : n0 <= n1.
Proof. destruct Ok as (A & R & C & F & O). apply (code_basic K _ _ _ _ _ C 0 item_sits). Qed.
Lemma item_needed p c s r : nth_error K p = Some c -> writes c = Some s -> live K (S p) r -> r <> s -> live K (S p) s \/ forall t, written K 0 p t -> t < s.
Proof.
  destruct Ok as (A & R & C & F & O). pose proof (code_basic K _ _ _ _ _ C 0 item_sits) as [X1 X2 X3 X4 X5]. cbn [Nat.add] in *. rewrite Forall_forall in F.
  assert (After : forall p r, live K p r -> (length (fst k) <= p)%nat -> In r A).
  { clear p r c s. intros p r L. induction L as [p c r E I | p q c r E W Fl L IH]; intros B; pose proof (item_after _ _ E B) as I'.
    - apply (F _ I'), I.
    - apply IH. destruct Fl as (c' & E' & [(_ & ->) | (n & G & La)]); [lia |]. rewrite E in E'. injection E' as <-. destruct (Out c n I' G). eapply label_in, La. }
  assert (So : sound K n0 0 (length (fst k))).
  { apply (code_sound K ND _ _ _ _ _ C 0 item_sits); cbn [Nat.add].
    - intros t L. right. eapply After; [exact L | lia].
    - intros t I. destruct O as [-> | [(u & ->) | (d & js & E & S)]]; [destruct I | |].
      + right. intros v L. apply After in L; [| lia]. apply X2 in I. destruct L as [<- | []]. destruct I as [<- | []]. reflexivity.
      + left. apply live_read with d; [| auto]. unfold K, item_code. rewrite nth_error_app2 by lia. rewrite Nat.sub_diag, E. reflexivity. }
  intros E W L N. destruct (Nat.lt_ge_cases p (length (fst k))) as [B | B].
  - apply (so_needed _ _ _ _ So p c s r); auto. lia.
  - pose proof (item_after _ _ E B) as I. apply F in I. destruct I. congruence.
Qed.
Lemma item_jumps p c n : nth_error K p = Some c -> goes_to c = Some n -> (exists q cq, (p < q < length K)%nat /\ nth_error K q = Some cq /\ label_im n cq) \/ P n.
Proof using Ok.
  clear Out ND.
  destruct Ok as (A & R & C & F & O). pose proof (code_basic K _ _ _ _ _ C 0 item_sits) as [X1 X2 X3 X4 X5]. cbn [Nat.add] in *. rewrite Forall_forall in F.
  intros E G. destruct (Nat.lt_ge_cases p (length (fst k))) as [B | B].
  - left. destruct (X5 p c n ltac:(lia) E G) as (q & cq & Q & Eq & La). exists q, cq. split; [| auto]. unfold K, item_code. rewrite app_length. lia.
  - right. pose proof (item_after _ _ E B) as I. apply F in I as (_ & _ & I). now apply I.
Qed.
End Item.

(** * A function *)
Section Items.
Variables (items : list item) (lo hi : Z).
Let fn := codes items.
Hypothesis ND : NoDup (labels fn).
Hypothesis Chain : ok_items (fun n => In n (all_marks items)) items lo hi.
Notation P := (fun n => In n (all_marks items)).

Lemma locate_item : forall l p, (p < length (codes l))%nat -> exists pre k post, l = pre ++ k :: post /\ (length (codes pre) <= p < length (codes pre) + length (item_code k))%nat.
Proof.
  induction l as [| k l IH]; intros p B; [cbn in B; lia |]. cbn [flat_map] in B. rewrite app_length in B. destruct (Nat.lt_ge_cases p (length (item_code k))) as [Lt | Ge].
  - exists [], k, l. split; [reflexivity | cbn; lia].
  - destruct (IH (p - length (item_code k))%nat ltac:(lia)) as (pre & k' & post & -> & Q). exists (k :: pre), k', post. split; [reflexivity |]. cbn [flat_map]. rewrite app_length. lia.
Qed.
Lemma chain_item : forall Q l n0 n1, ok_items Q l n0 n1 -> forall pre k post, l = pre ++ k :: post -> exists m m', ok_items Q pre n0 m /\ ok_item Q k m m' /\ ok_items Q post m' n1.
Proof.
  induction 1 as [n | x l n0 n1 n2 H1 H2 IH]; intros pre k post E; [now destruct pre |].
  destruct pre as [| y pre]; cbn [app] in E; injection E as <- E.
  - subst l. exists n0, n1. split; [constructor | auto].
  - destruct (IH _ _ _ E) as (m & m' & A & B & C). exists m, m'. split; [econstructor; eauto | auto].
Qed.
Lemma next_item : forall l : list item, (0 < length (codes l))%nat -> exists pre k post, l = pre ++ k :: post /\ codes pre = [] /\ (0 < length (item_code k))%nat.
Proof.
  intros l B. destruct (locate_item l 0 B) as (pre & k & post & E & Q). exists pre, k, post. split; [exact E |]. split; [destruct (codes pre); [reflexivity | cbn in Q; lia] |].
  destruct (item_code k); cbn in *; lia.
Qed.
Lemma fn_split pre k post : items = pre ++ k :: post -> fn = codes pre ++ item_code k ++ codes post.
Proof. intros E. unfold fn. rewrite E, flat_map_app. reflexivity. Qed.
Lemma item_at pre k post q : items = pre ++ k :: post -> (q < length (item_code k))%nat -> nth_error fn (length (codes pre) + q) = nth_error (item_code k) q.
Proof. intros E B. rewrite (fn_split _ _ _ E), nth_error_app2 by lia. replace (length (codes pre) + q - length (codes pre))%nat with q by lia. now rewrite nth_error_app1. Qed.
Lemma labels_mid (a b c : list immc) : NoDup (labels (a ++ b ++ c)) -> NoDup (labels b).
Proof. rewrite !labels_app. intros H. apply NoDup_r in H. now apply NoDup_l in H. Qed.
Lemma item_nodup pre k post : items = pre ++ k :: post -> NoDup (labels (item_code k)).
Proof. intros E. pose proof ND as N. rewrite (fn_split _ _ _ E) in N. now apply labels_mid in N. Qed.
Lemma mark_at n : In n (all_marks items) -> exists pre k post q t v, items = pre ++ k :: post /\ In n (marks k) /\ S q = length (item_code k) /\ nth_error (item_code k) q = Some (IMMC_LABEL t v n).
Proof.
  intros I. apply in_flat_map in I as (k & I & M). apply in_split in I as (pre & post & E). destruct (marks_last _ _ M) as (t & v & l & Ek).
  exists pre, k, post, (length l), t, v. split; [exact E |]. split; [exact M |]. rewrite Ek. split; [rewrite app_length; cbn; lia |]. rewrite nth_error_app2 by lia. now rewrite Nat.sub_diag.
Qed.
Lemma split_same A : forall (l1 l2 : list A) a b r1 r2, length l1 = length l2 -> l1 ++ a :: r1 = l2 ++ b :: r2 -> a = b.
Proof. induction l1 as [| x l1 IH]; intros [| y l2] a b r1 r2 Ln E; try discriminate Ln; cbn in E; injection E; auto. intros E' _. injection Ln as Ln. eapply IH; eauto. Qed.
(** two items with a common label are one *)
Lemma item_out pre k post c n : items = pre ++ k :: post -> In c (snd k) -> goes_to c = Some n -> In n (all_marks items) -> ~ In n (labels (item_code k)).
Proof.
  intros E I G M L. destruct (mark_at n M) as (pre' & k' & post' & q & t & v & E' & M' & Sq & Eq).
  unfold labels in L. apply in_flat_map in L as (x & Ix & Lx). destruct x as [| | | t' v' m]; try (exfalso; exact Lx). cbn in Lx. destruct Lx as [<- | []].
  apply In_nth_error in Ix as (q' & Eq').
  assert (A1 : nth_error fn (length (codes pre) + q') = Some (IMMC_LABEL t' v' m)) by (rewrite (item_at _ _ _ _ E); [exact Eq' | apply nth_error_Some; congruence]).
  assert (A2 : nth_error fn (length (codes pre') + q) = Some (IMMC_LABEL t v m)) by (rewrite (item_at _ _ _ _ E'); [exact Eq | lia]).
  assert (Pq : (length (codes pre) + q' = length (codes pre') + q)%nat) by (eapply label_once; eauto).
  assert (Lk : (q' < length (item_code k))%nat) by (apply nth_error_Some; congruence).
  (* the same position lies in one item only *)
  assert (Same : k = k').
  { assert (Lp : length pre = length pre').
    { assert (X : forall a b (l : list item), items = a ++ l -> items = b ++ l -> True) by auto. clear X.
      destruct (Nat.lt_trichotomy (length pre) (length pre')) as [Lt | [Eqn | Gt]]; [exfalso | exact Eqn | exfalso].
      - assert (F : exists d, pre' = pre ++ k :: d).
        { clear - E E' Lt. rewrite E in E'. clear E. revert pre' E' Lt. induction pre as [| x pre IH]; intros [| y pre'] E Lt; cbn in Lt; try lia; cbn in E; injection E as <- E; [exists pre'; reflexivity |]. destruct (IH _ E ltac:(lia)) as (d & ->). exists d. reflexivity. }
        destruct F as (d & ->). rewrite flat_map_app, app_length in Pq. cbn [flat_map] in Pq. rewrite app_length in Pq. lia.
      - assert (F : exists d, pre = pre' ++ k' :: d).
        { clear - E E' Gt. rewrite E in E'. clear E. symmetry in E'. revert pre E' Gt. induction pre' as [| x pre' IH]; intros [| y pre] E Gt; cbn in Gt; try lia; cbn in E; injection E as <- E; [exists pre; reflexivity |]. destruct (IH _ E ltac:(lia)) as (d & ->). exists d. reflexivity. }
        destruct F as (d & ->). rewrite flat_map_app, app_length in Pq. cbn [flat_map] in Pq. rewrite app_length in Pq. lia. }
    rewrite E in E'. eapply split_same; [exact Lp | exact E']. }
  subst k'. apply (marks_jump _ _ _ M') in I. congruence.
Qed.
Lemma facts pre k post : items = pre ++ k :: post -> exists m m', ok_items P pre lo m /\ ok_item P k m m' /\ ok_items P post m' hi
  /\ (forall c n, In c (snd k) -> goes_to c = Some n -> ~ In n (labels (item_code k))).
Proof.
  intros E. destruct (chain_item _ _ _ _ Chain _ _ _ E) as (m & m' & A & B & C). exists m, m'. split; [exact A |]. split; [exact B |]. split; [exact C |].
  intros c n I G. eapply item_out; eauto. destruct B as (Av & R & _ & F & _). rewrite Forall_forall in F. now apply (F _ I).
Qed.
Lemma start_dead pre k post r : items = pre ++ k :: post -> ~ live (item_code k) 0 r.
Proof.
  intros E L. destruct (facts _ _ _ E) as (m & m' & _ & B & _ & O). destruct (item_live P k m m' B (item_nodup _ _ _ E) O 0 r L) as [(q & c & Q & _) _]. lia.
Qed.
Lemma last_dead k q t v n r : S q = length (item_code k) -> nth_error (item_code k) q = Some (IMMC_LABEL t v n) -> ~ live (item_code k) q r.
Proof.
  intros S E L. inversion L as [p' c' r' E' I | p' q' c' r' E' W F L']; subst; rewrite E in E'; injection E' as <-; [destruct I |].
  destruct F as (c' & E' & [(_ & ->) | (m & G & _)]); [| rewrite E in E'; injection E' as <-; discriminate G].
  assert (X : nth_error (item_code k) (Datatypes.S q) = None) by (apply nth_error_None; lia). inversion L'; congruence.
Qed.
Lemma live_local p r : live fn p r -> forall pre k post, items = pre ++ k :: post -> (length (codes pre) <= p < length (codes pre) + length (item_code k))%nat -> live (item_code k) (p - length (codes pre)) r.
Proof.
  induction 1 as [p c r E I | p q c r E W F L IH]; intros pre k post Ei B.
  - apply live_read with c; [| exact I]. rewrite <- (item_at pre k post) by (auto; lia). now replace (length (codes pre) + (p - length (codes pre)))%nat with p by lia.
  - set (i := length (codes pre)) in *. assert (Ek : nth_error (item_code k) (p - i) = Some c) by (rewrite <- (item_at pre k post) by (auto; lia); fold i; now replace (i + (p - i))%nat with p by lia).
    destruct F as (c' & E' & F). rewrite E in E'. injection E' as <-. destruct F as [(G & ->) | (n & G & La)].
    + destruct (Nat.lt_ge_cases (S p) (i + length (item_code k))) as [Lt | Ge].
      * eapply live_later; [exact Ek | exact W | | apply (IH _ _ _ Ei); fold i; lia]. exists c. split; [exact Ek |]. left. split; [exact G | fold i; lia].
      * exfalso. assert (Sp : S p = length (codes (pre ++ [k]))) by (rewrite flat_map_app, app_length; cbn [flat_map]; rewrite app_nil_r; fold i; lia).
        assert (Bp : (S p < length fn)%nat) by (apply nth_error_Some; inversion L; congruence).
        destruct (next_item post) as (e & k' & post' & -> & Ee & Lk').
        { rewrite (fn_split _ _ _ Ei), !app_length in Bp. rewrite flat_map_app, app_length in Sp. cbn [flat_map] in Sp. rewrite app_nil_r in Sp. lia. }
        assert (Ei' : items = (pre ++ k :: e) ++ k' :: post') by (rewrite Ei, <- app_assoc; reflexivity).
        assert (Li : length (codes (pre ++ k :: e)) = S p) by (rewrite flat_map_app in *; cbn [flat_map] in *; rewrite Ee, Sp; reflexivity).
        specialize (IH _ _ _ Ei'). rewrite Li in IH. specialize (IH ltac:(lia)). rewrite Nat.sub_diag in IH. exact (start_dead _ _ _ _ Ei' IH).
    + destruct (facts _ _ _ Ei) as (m & m' & _ & Ok & _ & O). destruct (item_jumps P k m m' Ok _ _ _ Ek G) as [(q' & cq & Q & Eq & (t & v & ->)) | M].
      * assert (Fq : nth_error fn (i + q') = Some (IMMC_LABEL t v n)) by (unfold i; rewrite (item_at pre k post) by (auto; lia); exact Eq).
        rewrite (label_is fn ND _ _ _ _ Fq) in La. injection La as <-. specialize (IH _ _ _ Ei). fold i in IH. specialize (IH ltac:(lia)). replace (i + q' - i)%nat with q' in IH by lia.
        eapply live_later; [exact Ek | exact W | | exact IH]. exists c. split; [exact Ek |]. right. exists n. split; [exact G |]. apply (label_is _ (item_nodup _ _ _ Ei) _ _ _ _ Eq).
      * exfalso. destruct (mark_at n M) as (pre' & k' & post' & q' & t & v & Ei' & M' & Sq & Eq).
        assert (Fq : nth_error fn (length (codes pre') + q') = Some (IMMC_LABEL t v n)) by (rewrite (item_at pre' k' post') by (auto; lia); exact Eq).
        rewrite (label_is fn ND _ _ _ _ Fq) in La. injection La as <-. specialize (IH _ _ _ Ei' ltac:(lia)). replace (length (codes pre') + q' - length (codes pre'))%nat with q' in IH by lia.
        exact (last_dead _ _ _ _ _ _ Sq Eq IH).
Qed.
Lemma live_global pre k post p r : items = pre ++ k :: post -> live (item_code k) p r -> live fn (length (codes pre) + p) r.
Proof.
  intros Ei L. assert (At : forall p c, nth_error (item_code k) p = Some c -> nth_error fn (length (codes pre) + p) = Some c) by (intros x c E; rewrite (item_at pre k post) by (auto; apply nth_error_Some; congruence); exact E).
  induction L as [p c r E I | p q c r E W F L IH].
  - apply live_read with c; auto.
  - apply live_later with (length (codes pre) + q)%nat c; auto. destruct F as (c' & E' & F). rewrite E in E'. injection E' as <-. exists c. split; [auto |]. destruct F as [(G & ->) | (n & G & La)].
    + left. split; [exact G | lia].
    + right. exists n. split; [exact G |]. destruct (label_at_nth _ _ _ La) as (t & v & Eq). apply (label_is fn ND _ t v). auto.
Qed.
(** nothing is live where an item begins *)
Lemma boundary_dead pre k post r : items = pre ++ k :: post -> ~ live fn (length (codes pre)) r.
Proof.
  intros Ei L. assert (B : (length (codes pre) < length fn)%nat) by (apply nth_error_Some; inversion L; congruence).
  destruct (next_item (k :: post)) as (e & k' & post' & Ek & Ee & Lk).
  { rewrite (fn_split _ _ _ Ei), app_length in B. cbn [flat_map]. lia. }
  assert (Ei' : items = (pre ++ e) ++ k' :: post') by (rewrite Ei, Ek, <- app_assoc; reflexivity).
  assert (Li : length (codes (pre ++ e)) = length (codes pre)) by (rewrite flat_map_app, Ee, app_nil_r; reflexivity).
  rewrite <- Li in L. pose proof (live_local _ _ L _ _ _ Ei' ltac:(lia)) as L'. clear L. rename L' into L. rewrite Nat.sub_diag in L. exact (start_dead _ _ _ _ Ei' L).
Qed.
Lemma earlier_writes Q : forall l n0 n1, ok_items Q l n0 n1 -> n0 <= n1 /\ forall c t, In c (codes l) -> writes c = Some t -> n0 < t <= n1.
Proof.
  induction 1 as [n | k l n0 n1 n2 H1 H2 [IH1 IH2]]; [split; [lia | intros c t []] |]. pose proof (item_mono Q k _ _ H1). split; [lia |].
  intros c t I W. cbn [flat_map] in I. apply in_app_iff in I as [I | I]; [| specialize (IH2 c t I W); lia].
  apply In_nth_error in I as (q & E). assert (n0 < t <= n1); [| lia]. apply (item_writes Q k n0 n1 H1). exists q, c. split; [| auto]. split; [lia |]. apply nth_error_Some. congruence.
Qed.
Lemma items_fresh : fresh_loops fn.
Proof.
  intros p c n q r E G La Q L. destruct (locate_item items p) as (pre & k & post & Ei & B); [apply nth_error_Some; unfold fn in E; congruence |].
  assert (Ek : nth_error (item_code k) (p - length (codes pre)) = Some c) by (rewrite <- (item_at pre k post) by (auto; lia); now replace (length (codes pre) + (p - length (codes pre)))%nat with p by lia).
  destruct (facts _ _ _ Ei) as (m & m' & _ & Ok & _ & O). destruct (item_jumps P k m m' Ok _ _ _ Ek G) as [(q' & cq & Q' & Eq & (t & v & ->)) | M].
  + rewrite (label_is fn ND (length (codes pre) + q') t v) in La; [injection La as <-; lia |]. rewrite (item_at pre k post) by (auto; lia). exact Eq.
  + destruct (mark_at n M) as (pre' & k' & post' & q' & t & v & Ei' & M' & Sq & Eq).
    rewrite (label_is fn ND (length (codes pre') + q') t v) in La by (rewrite (item_at pre' k' post') by (auto; lia); exact Eq). injection La as <-.
    pose proof (live_local _ _ L _ _ _ Ei' ltac:(lia)) as L'. clear L. rename L' into L. replace (length (codes pre') + q' - length (codes pre'))%nat with q' in L by lia. exact (last_dead _ _ _ _ _ _ Sq Eq L).
Qed.
Lemma items_orderly : (forall c, last_error fn = Some c -> goes_on c = false) -> orderly fn.
Proof.
  intros Stops. split.
  - exact Stops.
  - intros c n I G. apply In_nth_error in I as (p & E). destruct (locate_item items p) as (pre & k & post & Ei & B); [apply nth_error_Some; unfold fn in E; congruence |].
    assert (Ek : nth_error (item_code k) (p - length (codes pre)) = Some c) by (rewrite <- (item_at pre k post) by (auto; lia); now replace (length (codes pre) + (p - length (codes pre)))%nat with p by lia).
    destruct (facts _ _ _ Ei) as (m & m' & _ & Ok & _ & O). destruct (item_jumps P k m m' Ok _ _ _ Ek G) as [(q' & cq & Q & Eq & (t & v & ->)) | M].
    + rewrite (label_is fn ND (length (codes pre) + q') t v); [discriminate |]. rewrite (item_at pre k post) by (auto; lia). exact Eq.
    + destruct (mark_at n M) as (pre' & k' & post' & q' & t & v & Ei' & M' & Sq & Eq).
      rewrite (label_is fn ND (length (codes pre') + q') t v); [discriminate |]. rewrite (item_at pre' k' post') by (auto; lia). exact Eq.
  - intros p r L. destruct (locate_item items p) as (pre & k & post & Ei & B); [change (p < length fn)%nat; apply nth_error_Some; inversion L; congruence |].
    pose proof (live_local _ _ L _ _ _ Ei B) as Lk. destruct (facts _ _ _ Ei) as (m & m' & _ & Ok & _ & O). destruct (item_live P k m m' Ok (item_nodup _ _ _ Ei) O _ _ Lk) as [(q & c & Q & E & W) _].
    exists (length (codes pre) + q)%nat, c. split; [lia |]. split; [| exact W]. rewrite (item_at pre k post) by (auto; lia). exact E.
  - intros p c s r E W L N. destruct (locate_item items p) as (pre & k & post & Ei & B); [apply nth_error_Some; unfold fn in E; congruence |].
    set (i := length (codes pre)) in *. assert (Ek : nth_error (item_code k) (p - i) = Some c) by (rewrite <- (item_at pre k post) by (auto; lia); fold i; now replace (i + (p - i))%nat with p by lia).
    destruct (Nat.lt_ge_cases (S p) (i + length (item_code k))) as [Lt | Ge].
    + pose proof (live_local _ _ L _ _ _ Ei ltac:(fold i; lia)) as Lk. fold i in Lk. replace (S p - i)%nat with (S (p - i)) in Lk by lia.
      destruct (facts _ _ _ Ei) as (m & m' & Op & Ok & _ & O). destruct (item_needed P k m m' Ok (item_nodup _ _ _ Ei) O _ _ _ _ Ek W Lk N) as [Z | Z].
      * left. apply (live_global _ _ _ _ _ Ei) in Z. fold i in Z. now replace (i + S (p - i))%nat with (S p) in Z by lia.
      * right. intros q d t Q Eq Wq. destruct (Nat.lt_ge_cases q i) as [Lq | Gq].
        -- destruct (earlier_writes P _ _ _ Op) as [_ Ew]. assert (lo < t <= m).
           { apply (Ew d t); [| exact Wq]. rewrite (fn_split _ _ _ Ei), nth_error_app1 in Eq by exact Lq. eapply nth_error_In, Eq. }
           assert (m < s); [| lia]. apply (item_writes P k m m' Ok). exists (p - i)%nat, c. split; [lia | auto].
        -- apply Z. exists (q - i)%nat, d. split; [lia |]. split; [| exact Wq]. rewrite <- (item_at pre k post) by (auto; lia). fold i. now replace (i + (q - i))%nat with q by lia.
    + exfalso. assert (Bp : (S p < length fn)%nat) by (apply nth_error_Some; inversion L; congruence).
      destruct (next_item post) as (e & k' & post' & -> & Ee & Lk').
      { rewrite (fn_split _ _ _ Ei), !app_length in Bp. fold i in Bp. lia. }
      assert (Ei' : items = (pre ++ k :: e) ++ k' :: post') by (rewrite Ei, <- app_assoc; reflexivity).
      apply (boundary_dead _ _ _ r Ei'). rewrite flat_map_app, app_length. cbn [flat_map]. rewrite Ee, app_nil_r. fold i. replace (i + length (item_code k))%nat with (S p) by lia. exact L.
  - right. exact items_fresh.
Qed.
End Items.
