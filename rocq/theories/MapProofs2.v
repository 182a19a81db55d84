(** Maps whose hash may be negative on keys that are never used: the behaviour only depends on the
    hash of the keys that occur. *)
From Verif Require Import Base MapModel MapSpec MapProofs.

Section Ext.
  Context {K V : Type}.
  Variable keq : K -> K -> bool.
  Variables hash hash' : K -> Z.
  Variable P : K -> Prop.
  Hypothesis agree : forall k, P k -> hash k = hash' k.
  Hypothesis keq_spec : forall a b, keq a b = true <-> a = b.

  Definition okc (oc : option (cell K V)) : Prop := match oc with Some c => P (ckey c) | None => True end.
  Definition oks (cs : list (option (cell K V))) : Prop := Forall okc cs.

  Lemma slot_ext k cap : P k -> slot hash k cap = slot hash' k cap.
  Proof. intros H. unfold slot. rewrite (agree k H). reflexivity. Qed.

  Lemma write_ok cs i c cs' : oks cs -> P (ckey c) -> write_cell cs i c = Ok cs' -> oks cs'.
  Proof.
    unfold write_cell, oks. intros Hcs Hc H. destruct (list_set cs i (Some c)) as [l|] eqn:E; [|discriminate].
    injection H as <-. revert i l E. induction Hcs as [|h t Hh Ht IH]; intros i l E; [destruct i; discriminate|].
    destruct i as [|i]; cbn in E.
    - injection E as <-. constructor; assumption.
    - destruct (list_set t i (Some c)) as [t'|] eqn:Et; [|discriminate]. injection E as <-. constructor; eauto.
  Qed.

  Lemma rehash_all_ext old : oks old -> forall new, oks new ->
    rehash_all hash old new = rehash_all hash' old new /\ forall r, rehash_all hash old new = Ok r -> oks r.
  Proof.
    induction 1 as [|oc old Hoc Hold IH]; intros new Hnew; cbn [rehash_all].
    - split; [reflexivity|]. intros r E. injection E as <-. assumption.
    - destruct oc as [c|]; [|auto]. destruct (cdel c); [auto|]. cbn in Hoc. rewrite (slot_ext _ _ Hoc).
      destruct (slot hash' (ckey c) (length new)) as [h| | | |]; cbn [bind]; try (split; [reflexivity|discriminate]).
      destruct (rehash_loop (length new) new h) as [i| | | |]; cbn [bind]; try (split; [reflexivity|discriminate]).
      destruct (write_cell new i c) as [new'| | | |] eqn:E; cbn [bind]; try (split; [reflexivity|discriminate]).
      apply IH. eapply write_ok; eauto.
  Qed.

  Lemma nones_ok n : oks (repeat None n).
  Proof. induction n; constructor; cbn; auto. Qed.

  Lemma update_ext m cap : oks (cells m) ->
    update_capacity hash m cap = update_capacity hash' m cap /\
    forall r, update_capacity hash m cap = Ok r -> oks (cells r).
  Proof.
    intros H. unfold update_capacity. destruct (rehash_all_ext _ H _ (nones_ok cap)) as (E & Hr).
    rewrite <- E. split; [reflexivity|]. intros r.
    destruct (rehash_all hash (cells m) (repeat None cap)) as [cs| | | |]; cbn [bind]; try discriminate.
    intros H'. injection H' as <-. apply Hr. reflexivity.
  Qed.

  Lemma add_ext m k v : oks (cells m) -> P k ->
    map_add keq hash m k v = map_add keq hash' m k v /\ forall r, map_add keq hash m k v = Ok r -> oks (cells r).
  Proof.
    intros H Hk. unfold map_add. rewrite (slot_ext _ _ Hk).
    destruct (slot hash' k (mcap m)) as [h| | | |]; cbn [bind]; try (split; [reflexivity|discriminate]).
    destruct (add_loop keq (mcap m) (cells m) k h) as [i| | | |]; cbn [bind]; try (split; [reflexivity|discriminate]).
    destruct (write_cell (cells m) i (mkcell k v false)) as [cs| | | |] eqn:E; cbn [bind]; try (split; [reflexivity|discriminate]).
    assert (oks cs) by (exact (write_ok _ _ (mkcell k v false) _ H Hk E)). destruct (_ <=? _).
    - apply update_ext. assumption.
    - split; [reflexivity|]. intros r Hr. injection Hr as <-. assumption.
  Qed.

  Lemma find_ext (m : map K V) k : P k -> map_find keq hash m k = map_find keq hash' m k.
  Proof. intros Hk. unfold map_find. rewrite (slot_ext _ _ Hk). reflexivity. Qed.

  Lemma get_ext (m : map K V) k : P k -> map_get keq hash m k = map_get keq hash' m k.
  Proof. intros Hk. unfold map_get. rewrite (find_ext _ _ Hk). reflexivity. Qed.

  Lemma remove_ext m k : oks (cells m) -> P k ->
    map_remove keq hash m k = map_remove keq hash' m k /\ forall r, map_remove keq hash m k = Ok r -> oks (cells r).
  Proof.
    intros H Hk. unfold map_remove. rewrite (find_ext _ _ Hk).
    destruct (map_find keq hash' m k) as [[i|]| | | |]; cbn [bind]; try (split; [reflexivity|discriminate]).
    - destruct (cell_at (cells m) i) as [[c|]| | | |] eqn:Ec; cbn [bind]; try (split; [reflexivity|discriminate]).
      destruct (write_cell (cells m) i (mkcell (ckey c) (cval c) true)) as [cs| | | |] eqn:E; cbn [bind];
        try (split; [reflexivity|discriminate]).
      assert (oks cs).
      { eapply write_ok; [eassumption| |eassumption]. cbn. unfold cell_at in Ec.
        destruct (nth_error (cells m) i) as [oc|] eqn:En; [|discriminate]. injection Ec as ->.
        unfold oks in H. rewrite Forall_forall in H. apply nth_error_In in En. exact (H _ En). }
      destruct (_ <? _).
      + apply update_ext. assumption.
      + split; [reflexivity|]. intros r Hr. injection Hr as <-. assumption.
    - split; [reflexivity|]. intros r Hr. injection Hr as <-. assumption.
  Qed.

  Definition okop (o : upd K V) : Prop := match o with UAdd k _ => P k | URemove k => P k end.

  Lemma run_ext ops : Forall okop ops -> forall m, oks (cells m) ->
    map_run keq hash m (List.map to_mop ops) = map_run keq hash' m (List.map to_mop ops).
  Proof.
    induction 1 as [|o ops Ho Hops IH]; intros m Hm; cbn [List.map map_run]; [reflexivity|].
    destruct o as [k v|k]; cbn [to_mop map_step okop] in *.
    - destruct (add_ext m k v Hm Ho) as (<- & Hr).
      destruct (map_add keq hash m k v) as [m'| | | |]; cbn [bind]; auto.
    - destruct (remove_ext m k Hm Ho) as (<- & Hr).
      destruct (map_remove keq hash m k) as [m'| | | |]; cbn [bind]; auto.
  Qed.
End Ext.

Section Main.
  Context {K V : Type}.
  Variable keq : K -> K -> bool.
  Variable hash : K -> Z.
  Hypothesis keq_spec : forall a b, keq a b = true <-> a = b.

  (** keys on which hash_object returns a non-negative int *)
  Definition good (k : K) : Prop := (0 <= hash k)%Z.
  Definition good_ops (ops : list (upd K V)) : Prop := Forall (okop good) ops.

  Let h' (k : K) : Z := Z.abs (hash k).
  Lemma h'_agree k : good k -> hash k = h' k.
  Proof. unfold good, h'. lia. Qed.
  Lemma h'_nonneg k : (0 <= h' k)%Z.
  Proof. unfold h'. lia. Qed.

  Lemma run_h' ops : good_ops ops ->
    map_run keq hash new_map (List.map to_mop ops) = map_run keq h' new_map (List.map to_mop ops).
  Proof.
    intros H. apply run_ext with (P := good); [exact h'_agree|exact H|].
    unfold oks; cbn. repeat constructor.
  Qed.

  Lemma tidy_history_good ops : good_ops ops -> tidy keq ops ->
    exists m, map_run keq hash new_map (List.map to_mop ops) = Ok m /\
      (forall k, good k -> map_get keq hash m k = Ok (latest keq ops k)) /\
      NoDup (List.map fst (map_iter m)) /\
      (forall k v, In (k, v) (map_iter m) <-> latest keq ops k = Some v).
  Proof.
    intros Hg Ht. rewrite (run_h' ops Hg).
    destruct (tidy_history keq h' keq_spec h'_nonneg ops Ht) as (m & Hr & H1 & H2 & H3).
    exists m. split; [exact Hr|]. split; [|auto].
    intros k Hk. rewrite (get_ext keq hash h' good h'_agree m k Hk). apply H1.
  Qed.

  Lemma any_history_good ops : good_ops ops ->
    exists m, map_run keq hash new_map (List.map to_mop ops) = Ok m /\
      forall k, good k -> exists o, map_get keq hash m k = Ok o /\
        (latest keq ops k <> None -> o <> None) /\
        (forall v, o = Some v -> In (UAdd k v) ops).
  Proof.
    intros Hg. rewrite (run_h' ops Hg).
    destruct (any_history keq h' keq_spec h'_nonneg ops) as (m & Hr & H).
    exists m. split; [exact Hr|]. intros k Hk. destruct (H k) as (o & Ho & H1 & H2).
    exists o. rewrite (get_ext keq hash h' good h'_agree m k Hk). auto.
  Qed.
End Main.

(** hash_integer is non-negative everywhere, hash_string on strings of 7-bit characters. *)
Lemma hash_integer_nonneg x : (0 <= hash_integer x)%Z.
Proof. unfold hash_integer. destruct (Z.leb_spec 0 x); lia. Qed.

Lemma hash_string_nonneg s : Forall (fun c => 0 <= c)%Z s -> (0 <= hash_string s)%Z.
Proof.
  unfold hash_string. assert (forall s h, Forall (fun c => 0 <= c)%Z s -> (0 <= h)%Z ->
    (0 <= fold_left (fun h c => Z.rem (c * 151 + h) 587) s h)%Z) as H.
  { induction s0 as [|c t IH]; intros h Hs Hh; cbn; [assumption|].
    inversion Hs; subst. apply IH; [assumption|]. apply Z.rem_nonneg; lia. }
  intros Hs. apply H; [assumption|lia].
Qed.

Lemma zeqb_spec a b : Z.eqb a b = true <-> a = b.
Proof. apply Z.eqb_eq. Qed.

Lemma name_eqb_spec a b : name_eqb a b = true <-> a = b.
Proof.
  unfold name_eqb. revert b. induction a as [|x a IH]; intros [|y b]; cbn; try (split; [discriminate|discriminate]); try tauto.
  rewrite andb_true_iff, Z.eqb_eq, IH. split; [intros (-> & ->); reflexivity|intros H; injection H; auto].
Qed.

Lemma tidy_lookup : forall (K V : Type) (keq : K -> K -> bool) (hash : K -> Z),
  (forall a b, keq a b = true <-> a = b) ->
  forall ops : list (upd K V),
  Forall (fun o => match o with UAdd k _ => (0 <= hash k)%Z | URemove k => (0 <= hash k)%Z end) ops ->
  tidy keq ops ->
  exists m, map_run keq hash new_map (List.map to_mop ops) = Ok m /\
    forall k, (0 <= hash k)%Z -> map_get keq hash m k = Ok (latest keq ops k).
Proof.
  intros K V keq hash Hk ops Hg Ht. destruct (tidy_history_good keq hash Hk ops Hg Ht) as (m & H1 & H2 & _). eauto.
Qed.

Lemma tidy_iteration : forall (K V : Type) (keq : K -> K -> bool) (hash : K -> Z),
  (forall a b, keq a b = true <-> a = b) ->
  forall ops : list (upd K V),
  Forall (fun o => match o with UAdd k _ => (0 <= hash k)%Z | URemove k => (0 <= hash k)%Z end) ops ->
  tidy keq ops ->
  exists m, map_run keq hash new_map (List.map to_mop ops) = Ok m /\
    NoDup (List.map fst (map_iter m)) /\
    (forall k v, In (k, v) (map_iter m) <-> latest keq ops k = Some v).
Proof.
  intros K V keq hash Hk ops Hg Ht. destruct (tidy_history_good keq hash Hk ops Hg Ht) as (m & H1 & _ & H3). eauto.
Qed.

Lemma any_lookup : forall (K V : Type) (keq : K -> K -> bool) (hash : K -> Z),
  (forall a b, keq a b = true <-> a = b) ->
  forall ops : list (upd K V),
  Forall (fun o => match o with UAdd k _ => (0 <= hash k)%Z | URemove k => (0 <= hash k)%Z end) ops ->
  exists m, map_run keq hash new_map (List.map to_mop ops) = Ok m /\
    forall k, (0 <= hash k)%Z -> exists o, map_get keq hash m k = Ok o /\
      (latest keq ops k <> None -> o <> None) /\
      (forall v, o = Some v -> In (UAdd k v) ops).
Proof. intros K V keq hash Hk ops Hg. exact (any_history_good keq hash Hk ops Hg). Qed.

Lemma add_only_history : forall (K V : Type) (keq : K -> K -> bool) (hash : K -> Z),
  (forall a b, keq a b = true <-> a = b) ->
  forall ops : list (upd K V),
  Forall (fun o => match o with UAdd k _ => (0 <= hash k)%Z | URemove _ => False end) ops ->
  exists m, map_run keq hash new_map (List.map to_mop ops) = Ok m /\
    forall k, (0 <= hash k)%Z -> map_get keq hash m k = Ok (latest keq ops k).
Proof.
  intros K V keq hash Hk ops Hg. apply tidy_lookup; [assumption| |].
  - eapply Forall_impl; [|exact Hg]. intros [k v|k]; [auto|intros []].
  - apply add_only_tidy. intros k Hin. rewrite Forall_forall in Hg. exact (Hg _ Hin).
Qed.
