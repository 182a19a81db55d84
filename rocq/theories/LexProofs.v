(** The lexer against the token specification. *)
From Verif Require Import Base MapModel SetModel MapSpec MapProofs MapProofs2 SetProofs LiteralModel LexerModel LexSpec.
Local Open Scope Z_scope.

(** ** the tables *)
Definition char_range : list Z := List.map (fun n => Z.of_nat n - 128) (seq 0 256).

Lemma in_char_range c : is_char c -> In c char_range.
Proof.
  unfold is_char, char_range. intros H. apply in_map_iff. exists (Z.to_nat (c + 128)). split; [lia|].
  apply in_seq. lia.
Qed.

Lemma check_chars (f : Z -> bool) : forallb f char_range = true -> forall c, is_char c -> f c = true.
Proof. intros H c Hc. rewrite forallb_forall in H. apply H. apply in_char_range. exact Hc. Qed.

Definition ok_bool (r : res bool) (b : bool) : bool := match r with Ok b' => Bool.eqb b' b | _ => false end.
Lemma ok_bool_spec r b : ok_bool r b = true -> r = Ok b.
Proof. destruct r; cbn; try discriminate. intros H. apply Bool.eqb_prop in H. congruence. Qed.

Lemma is_in_nondigit c : is_char c -> is_in_set nondigit_set c = Ok (nondigit c || (c =? 0)).
Proof. intros H. apply ok_bool_spec. revert c H. apply check_chars. vm_compute. reflexivity. Qed.
Lemma is_in_space c : is_char c -> is_in_set white_space_set c = Ok (space c || (c =? 0)).
Proof. intros H. apply ok_bool_spec. revert c H. apply check_chars. vm_compute. reflexivity. Qed.
Lemma is_digit_spec c : is_char c -> is_digit_in digit_map c = Ok (digit c).
Proof. intros H. apply ok_bool_spec. revert c H. apply check_chars. vm_compute. reflexivity. Qed.
Lemma is_octdigit_spec c : is_char c -> is_digit_in octdigit_map c = Ok (octdigit c).
Proof. intros H. apply ok_bool_spec. revert c H. apply check_chars. vm_compute. reflexivity. Qed.
Lemma is_hexdigit_spec c : is_char c -> is_digit_in hexdigit_map c = Ok (hexdigit c).
Proof. intros H. apply ok_bool_spec. revert c H. apply check_chars. vm_compute. reflexivity. Qed.

Definition ok_optz (r : res (option Z)) (o : option Z) : bool :=
  match r, o with
  | Ok (Some a), Some b => a =? b
  | Ok None, None => true
  | _, _ => false
  end.
Lemma ok_optz_spec r o : ok_optz r o = true -> r = Ok o.
Proof.
  destruct r as [[a|]| | | |], o as [b|]; cbn; try discriminate; [|reflexivity].
  intros H. apply Z.eqb_eq in H. congruence.
Qed.

Lemma lookup_oct_spec c : is_char c -> lookup_digit octdigit_map c = Ok (if octdigit c then Some (dval c) else None).
Proof. intros H. apply ok_optz_spec. revert c H. apply check_chars. vm_compute. reflexivity. Qed.
Lemma lookup_hex_spec c : is_char c -> lookup_digit hexdigit_map c = Ok (if hexdigit c then Some (dval c) else None).
Proof. intros H. apply ok_optz_spec. revert c H. apply check_chars. vm_compute. reflexivity. Qed.

(** string tables *)
Lemma find_loop_sound {K V} (keq : K -> K -> bool) fuel (cs : list (option (cell K V))) k orig : forall h i,
  find_loop keq fuel cs k orig h = Ok (Some i) ->
  exists c, nth_error cs i = Some (Some c) /\ live_key keq c k = true.
Proof.
  induction fuel as [|f IH]; intros h i H; cbn in H; [discriminate|].
  unfold cell_at in H. destruct (nth_error cs h) as [[c|]|] eqn:E; cbn in H; try discriminate.
  destruct (live_key keq c k) eqn:El.
  - injection H as <-. eauto.
  - destruct (_ =? orig)%nat; [discriminate|]. eapply IH; eauto.
Qed.

Lemma map_get_sound {K V} (keq : K -> K -> bool) hash (m : map K V) k v :
  map_get keq hash m k = Ok (Some v) -> exists k', In (k', v) (map_iter m) /\ keq k' k = true.
Proof.
  unfold map_get, map_find. destruct (slot hash k (mcap m)) as [h| | | |]; cbn; try discriminate.
  destruct (find_loop keq (mcap m) (cells m) k h h) as [[i|]| | | |] eqn:E; cbn; try discriminate.
  apply find_loop_sound in E. destruct E as (c & Hc & Hl). unfold cell_at. rewrite Hc. cbn.
  unfold live_key in Hl. apply andb_prop in Hl. destruct Hl as (Hd & Hk). destruct (cdel c) eqn:Ed; [discriminate|].
  intros H. injection H as <-. exists (ckey c). split; [|exact Hk].
  unfold map_iter. apply in_flat_map. exists (Some c). split; [eapply nth_error_In; eauto|]. rewrite Ed. left; reflexivity.
Qed.

Lemma assoc_in {V} (t : list (name * V)) s v : assoc t s = Some v -> In (s, v) t.
Proof.
  induction t as [|[k w] t IH]; cbn; [discriminate|]. destruct (name_eqb k s) eqn:E.
  - apply name_eqb_spec in E. intros H. injection H as <-. subst. auto.
  - auto.
Qed.

Lemma assoc_none {V} (t : list (name * V)) s v : assoc t s = None -> ~ In (s, v) t.
Proof.
  induction t as [|[k w] t IH]; cbn; [tauto|]. destruct (name_eqb k s) eqn:E; [discriminate|].
  intros H [H'|H']; [|eapply IH; eauto]. injection H' as <- <-.
  assert (name_eqb k k = true) by (apply name_eqb_spec; reflexivity). congruence.
Qed.

Fixpoint distinct_keys {V} (t : list (name * V)) : bool :=
  match t with
  | [] => true
  | (k, _) :: t' => negb (existsb (fun p => name_eqb (fst p) k) t') && distinct_keys t'
  end.

Lemma distinct_spec {V} (t : list (name * V)) k v : distinct_keys t = true -> In (k, v) t -> assoc t k = Some v.
Proof.
  induction t as [|[k0 w] t IH]; cbn; [tauto|]. intros Hd [H|H].
  - injection H as <- <-. replace (name_eqb k0 k0) with true by (symmetry; apply name_eqb_spec; reflexivity). reflexivity.
  - apply andb_prop in Hd. destruct Hd as (Hd & Hd'). destruct (name_eqb k0 k) eqn:E; [|auto].
    apply name_eqb_spec in E. subst k0. apply negb_true_iff in Hd. exfalso.
    assert (existsb (fun p => name_eqb (fst p) k) t = true).
    { apply existsb_exists. exists (k, v). split; [assumption|]. cbn. apply name_eqb_spec; reflexivity. }
    congruence.
Qed.

Definition ascii_keys {V} (t : list (name * V)) : bool :=
  forallb (fun p => forallb (fun c => (0 <=? c)) (fst p)) t.

Definition adds {V} (t : list (name * V)) : list (upd name V) := List.map (fun kv => UAdd (fst kv) (snd kv)) t.

Lemma latest_adds {V} (t : list (name * V)) k : distinct_keys t = true -> latest name_eqb (adds t) k = assoc t k.
Proof.
  unfold latest. intros Hd.
  assert (H : forall f, (forall k v, In (k, v) t -> f k = None) ->
    fold_left (upd_step name_eqb) (adds t) f k = match assoc t k with Some v => Some v | None => f k end).
  { induction t as [|[k0 w] t IH]; intros f Hf; cbn; [reflexivity|]. cbn in Hd. apply andb_prop in Hd.
    destruct Hd as (Hd0 & Hd). apply negb_true_iff in Hd0.
    assert (Hno : forall v, ~ In (k0, v) t).
    { intros v Hin. assert (existsb (fun p => name_eqb (fst p) k0) t = true); [|congruence].
      apply existsb_exists. exists (k0, v). split; [assumption|]. cbn. apply name_eqb_spec; reflexivity. }
    fold (adds t). rewrite IH; [|assumption|].
    - destruct (name_eqb k0 k) eqn:E.
      + apply name_eqb_spec in E. subst k0. destruct (assoc t k) eqn:Ea; [|reflexivity].
        apply assoc_in in Ea. destruct (Hno _ Ea).
      + reflexivity.
    - intros k1 v1 Hin. destruct (name_eqb k0 k1) eqn:E; [|apply Hf with v1; right; assumption].
      apply name_eqb_spec in E. subst. destruct (Hno _ Hin). }
  rewrite H; [|reflexivity]. destruct (assoc t k); reflexivity.
Qed.

(** lookups are right whenever they are defined, and defined on keys with non-negative characters *)
Lemma lookup_table {V} (t : list (name * V)) m :
  m = build_map name_eqb hash_string t -> distinct_keys t = true -> ascii_keys t = true ->
  (forall s o, lookup_name m s = Ok o -> o = assoc t s) /\
  (forall s, Forall (fun c => 0 <= c) s -> lookup_name m s = Ok (assoc t s)).
Proof.
  intros Hm Hd Ha.
  assert (Hgood : Forall (fun o => match o with UAdd k _ => 0 <= hash_string k | URemove k => 0 <= hash_string k end) (adds t)).
  { unfold adds. apply Forall_map. rewrite Forall_forall. intros [k v] Hin. cbn. apply hash_string_nonneg.
    unfold ascii_keys in Ha. rewrite forallb_forall in Ha. specialize (Ha _ Hin). cbn in Ha.
    rewrite forallb_forall in Ha. rewrite Forall_forall. intros c Hc. specialize (Ha c Hc). lia. }
  assert (Htidy : tidy name_eqb (adds t)).
  { apply add_only_tidy. intros k Hin. unfold adds in Hin. apply in_map_iff in Hin. destruct Hin as (? & H & _). discriminate. }
  destruct (tidy_history_good name_eqb hash_string name_eqb_spec (adds t) Hgood Htidy) as (m' & Hr & Hget & _ & Hit).
  assert (Hb : m = Ok m').
  { rewrite Hm. unfold build_map. rewrite <- Hr. unfold adds. rewrite map_map. reflexivity. }
  assert (H2 : forall s, Forall (fun c => 0 <= c) s -> lookup_name m s = Ok (assoc t s)).
  { intros s Hs. rewrite Hb. cbn. rewrite Hget by (apply hash_string_nonneg; assumption). f_equal. apply latest_adds; assumption. }
  split; [|exact H2]. intros s o H.
  destruct (Forall_dec (fun c => 0 <= c) (fun c => Z_le_dec 0 c) s) as [Hs|Hs].
  - rewrite H2 in H by assumption. congruence.
  - assert (assoc t s = None) as ->.
    { destruct (assoc t s) eqn:E; [|reflexivity]. exfalso. apply Hs. apply assoc_in in E.
      unfold ascii_keys in Ha. rewrite forallb_forall in Ha. specialize (Ha _ E). cbn in Ha.
      rewrite forallb_forall in Ha. rewrite Forall_forall. intros c Hc. specialize (Ha c Hc). lia. }
    rewrite Hb in H. cbn in H. destruct o as [v|]; [|reflexivity]. exfalso.
    apply map_get_sound in H. destruct H as (k' & Hin & Hk). apply name_eqb_spec in Hk. subst k'.
    apply Hit in Hin. rewrite latest_adds in Hin by assumption. apply assoc_in in Hin. apply Hs.
    unfold ascii_keys in Ha. rewrite forallb_forall in Ha. specialize (Ha _ Hin). cbn in Ha.
    rewrite forallb_forall in Ha. rewrite Forall_forall. intros c Hc. specialize (Ha c Hc). lia.
Qed.

(** two tables with the same entries *)
Definition same_table {V} (veq : V -> V -> bool) (t1 t2 : list (name * V)) : bool :=
  let sub a b := forallb (fun p => match assoc b (fst p) with Some v => veq v (snd p) | None => false end) a in
  sub t1 t2 && sub t2 t1.
Lemma same_table_spec {V} (veq : V -> V -> bool) (Hv : forall a b, veq a b = true -> a = b) t1 t2 :
  same_table veq t1 t2 = true -> forall s, assoc t1 s = assoc t2 s.
Proof.
  intros H s. apply andb_prop in H. destruct H as (H1 & H2). rewrite forallb_forall in H1, H2.
  destruct (assoc t1 s) as [v|] eqn:E1.
  - specialize (H1 _ (assoc_in _ _ _ E1)). cbn in H1. destruct (assoc t2 s); [|discriminate]. apply Hv in H1. congruence.
  - destruct (assoc t2 s) as [v|] eqn:E2; [|reflexivity]. specialize (H2 _ (assoc_in _ _ _ E2)). cbn in H2. rewrite E1 in H2. discriminate.
Qed.
Lemma lookup_spec_table {V} (veq : V -> V -> bool) (t1 t2 : list (name * V)) m :
  (forall a b, veq a b = true -> a = b) -> same_table veq t1 t2 = true ->
  m = build_map name_eqb hash_string t1 -> distinct_keys t1 = true -> ascii_keys t1 = true ->
  (forall s o, lookup_name m s = Ok o -> o = assoc t2 s) /\
  (forall s, Forall (fun c => 0 <= c) s -> lookup_name m s = Ok (assoc t2 s)).
Proof.
  intros Hv Hs H1 H2 H3. destruct (lookup_table t1 m H1 H2 H3) as (K1 & K2). pose proof (same_table_spec veq Hv t1 t2 Hs) as E.
  split; intros s; [intros o Ho|intros Ho]; rewrite <- E; auto.
Qed.
Lemma ctype_eqb_eq a b : ctype_eqb a b = true -> a = b.
Proof. unfold ctype_eqb. destruct (ctype_eq_dec a b); [auto|discriminate]. Qed.
Definition iltype_eqb (a b : iltype) : bool :=
  match a, b with IInt, IInt | IUInt, IUInt | ILong, ILong | IULong, IULong | ILongLong, ILongLong | IULongLong, IULongLong => true | _, _ => false end.
Lemma iltype_eqb_eq a b : iltype_eqb a b = true -> a = b.
Proof. destruct a, b; cbn; congruence. Qed.

Lemma keyword_ok : (forall s o, lookup_name keyword_map s = Ok o -> o = assoc keywords s) /\
  (forall s, Forall (fun c => 0 <= c) s -> lookup_name keyword_map s = Ok (assoc keywords s)).
Proof. apply (lookup_spec_table ctype_eqb keyword_table); [apply ctype_eqb_eq|vm_compute; reflexivity..]. Qed.
Lemma punct_ok : (forall s o, lookup_name punctuator_map s = Ok o -> o = assoc punctuators s) /\
  (forall s, Forall (fun c => 0 <= c) s -> lookup_name punctuator_map s = Ok (assoc punctuators s)).
Proof. apply (lookup_spec_table ctype_eqb punctuator_table); [apply ctype_eqb_eq|vm_compute; reflexivity..]. Qed.
Lemma suffix_ok : (forall s o, lookup_name suffix_map s = Ok o -> o = assoc suffixes s) /\
  (forall s, Forall (fun c => 0 <= c) s -> lookup_name suffix_map s = Ok (assoc suffixes s)).
Proof. apply (lookup_spec_table iltype_eqb suffix_table); [apply iltype_eqb_eq|vm_compute; reflexivity..]. Qed.

(** ** numbers *)
Lemma number_fold base ds : forall v,
  fold_left (fun v c => v * base + dval c) ds v = v * base ^ Z.of_nat (length ds) + number base ds.
Proof.
  induction ds as [|d t IH]; intros v; cbn [fold_left number length].
  - change (Z.of_nat 0) with 0. rewrite Z.pow_0_r. lia.
  - rewrite IH. rewrite Nat2Z.inj_succ, Z.pow_succ_r by lia. ring.
Qed.

Lemma dval_digit c : hexdigit c = true -> digit_value c = dval c.
Proof.
  unfold hexdigit, digit_value, dval, digit, lower. intros H.
  destruct ((48 <=? c) && (c <=? 57)) eqn:E1; [reflexivity|].
  destruct ((97 <=? c) && (c <=? 102)) eqn:E2.
  - replace ((97 <=? c) && (c <=? 122)) with true by lia. lia.
  - replace ((97 <=? c) && (c <=? 122)) with false by lia. lia.
Qed.

Lemma digits_value_number base ds : forallb hexdigit ds = true -> digits_value base ds = number base ds.
Proof.
  intros H. unfold digits_value.
  assert (G : forall v, fold_left (fun v c => v * base + digit_value c) ds v = fold_left (fun v c => v * base + dval c) ds v).
  { induction ds as [|d t IH]; intros v; cbn in *; [reflexivity|].
    apply andb_prop in H. destruct H as (H1 & H2). rewrite IH by assumption. rewrite dval_digit by assumption. reflexivity. }
  rewrite G, number_fold. lia.
Qed.

Lemma oct_is_hex c : octdigit c = true -> hexdigit c = true.
Proof. unfold octdigit, hexdigit, digit. lia. Qed.
Lemma dec_is_hex c : digit c = true -> hexdigit c = true.
Proof. unfold hexdigit. intros ->. reflexivity. Qed.
Lemma forallb_impl {A} (f g : A -> bool) l : (forall x, f x = true -> g x = true) -> forallb f l = true -> forallb g l = true.
Proof. intros H. rewrite !forallb_forall. auto. Qed.

Lemma create_spec ds base t : forallb hexdigit ds = true -> TInt (create_iliteral ds base t) = int_token t (number base ds).
Proof.
  intros H. unfold create_iliteral, int_token, new_unsigned, new_signed. rewrite digits_value_number by assumption.
  destruct (iltype_isunsigned t); reflexivity.
Qed.

(** ** scanning loops *)
Lemma ischar_eof : is_char EOF.
Proof. unfold is_char, EOF; lia. Qed.
Lemma ischar_top cs : Forall is_char cs -> is_char (get_top cs).
Proof. intros H. destruct H; cbn; [apply ischar_eof|assumption]. Qed.

Definition nonul (cs : list Z) : Prop := Forall (fun c => c <> 0) cs.

Lemma skip_spec cs : Forall is_char cs -> nonul cs ->
  exists ws rest, skip_white_spaces cs = Ok rest /\ cs = ws ++ rest /\ forallb space ws = true /\ head_is space rest = false.
Proof.
  induction cs as [|c t IH]; intros Hc Hn; cbn [skip_white_spaces].
  - rewrite is_in_space by apply ischar_eof. cbn. exists [], []. auto.
  - inversion Hc; subst. inversion Hn; subst. rewrite is_in_space by assumption. cbn [bind].
    replace (c =? 0) with false by lia. rewrite orb_false_r. destruct (space c) eqn:E.
    + destruct (IH H2 H4) as (ws & rest & -> & -> & H6 & H7). exists (c :: ws), rest. cbn. rewrite E. auto.
    + exists [], (c :: t). cbn. rewrite E. auto.
Qed.

Lemma skip_ws ws rest : forallb space ws = true -> Forall is_char rest -> nonul rest -> head_is space rest = false ->
  skip_white_spaces (ws ++ rest) = Ok rest.
Proof.
  intros Hw Hc Hn Hh. induction ws as [|c t IH]; cbn [app].
  - destruct rest as [|c t]; cbn [skip_white_spaces].
    + rewrite is_in_space by apply ischar_eof. reflexivity.
    + inversion Hc; subst. inversion Hn; subst. rewrite is_in_space by assumption. cbn in Hh. rewrite Hh.
      replace (c =? 0) with false by lia. reflexivity.
  - cbn in Hw. apply andb_prop in Hw. destruct Hw as (H1 & H2). cbn [skip_white_spaces].
    rewrite is_in_space by (unfold is_char; unfold space in H1; lia). cbn [bind]. rewrite H1. cbn. auto.
Qed.

Definition wordchar (c : Z) : bool := nondigit c || digit c.

Lemma ident_spec cs : Forall is_char cs -> nonul cs ->
  exists w rest, ident_loop cs = Ok (w, rest) /\ cs = w ++ rest /\ forallb wordchar w = true /\ head_is wordchar rest = false.
Proof.
  induction cs as [|c t IH]; intros Hc Hn; cbn [ident_loop].
  - rewrite is_in_nondigit, is_digit_spec by apply ischar_eof. cbn. exists [], []. auto.
  - inversion Hc; subst. inversion Hn; subst. rewrite is_in_nondigit, is_digit_spec by assumption. cbn [bind].
    replace (c =? 0) with false by lia. rewrite orb_false_r. fold (wordchar c). destruct (wordchar c) eqn:E.
    + destruct (IH H2 H4) as (w & rest & -> & -> & H6 & H7). cbn [bind fst snd]. exists (c :: w), rest. cbn. rewrite E. auto.
    + exists [], (c :: t). cbn. rewrite E. auto.
Qed.

(** the split of a text at the first character outside a class is unique *)
Lemma split_unique (f : Z -> bool) w1 r1 w2 r2 :
  w1 ++ r1 = w2 ++ r2 -> forallb f w1 = true -> forallb f w2 = true ->
  head_is f r1 = false -> head_is f r2 = false -> w1 = w2 /\ r1 = r2.
Proof.
  revert w2. induction w1 as [|c w1 IH]; intros [|d w2] H H1 H2 H3 H4; cbn in *.
  - auto.
  - subst r1. cbn in H3. apply andb_prop in H2. destruct H2 as (H2 & _). congruence.
  - subst r2. cbn in H4. apply andb_prop in H1. destruct H1 as (H1 & _). congruence.
  - injection H as -> H. apply andb_prop in H1, H2. destruct H1, H2.
    destruct (IH w2 H) as (-> & ->); auto.
Qed.

Lemma digits_spec m f cs :
  (forall c, is_char c -> is_digit_in m c = Ok (f c)) -> f EOF = false -> Forall is_char cs ->
  exists w rest, digits_loop m cs = Ok (w, rest) /\ cs = w ++ rest /\ forallb f w = true /\ head_is f rest = false.
Proof.
  intros Hm He. induction cs as [|c t IH]; intros Hc; cbn [digits_loop].
  - rewrite Hm by apply ischar_eof. rewrite He. cbn. exists [], []. auto.
  - inversion Hc; subst. rewrite Hm by assumption. cbn [bind]. destruct (f c) eqn:E.
    + destruct (IH H2) as (w & rest & -> & -> & H6 & H7). cbn [bind fst snd]. exists (c :: w), rest. cbn. rewrite E. auto.
    + exists [], (c :: t). cbn. rewrite E. auto.
Qed.

Lemma read_digits_spec m f cs :
  (forall c, is_char c -> is_digit_in m c = Ok (f c)) -> f EOF = false -> Forall is_char cs ->
  exists w rest, cs = w ++ rest /\ forallb f w = true /\ head_is f rest = false /\
    read_digits m cs = match w with [] => Err | _ => Ok (w, rest) end.
Proof.
  intros Hm He Hc. unfold read_digits. rewrite Hm by (apply ischar_top; assumption). cbn [bind].
  destruct cs as [|c t]; cbn [get_top advance].
  - rewrite He. exists [], []. auto.
  - inversion Hc; subst. destruct (f c) eqn:E.
    + destruct (digits_spec m f t Hm He H2) as (w & rest & -> & -> & H6 & H7). cbn [bind fst snd].
      exists (c :: w), rest. cbn. rewrite E. auto.
    + exists [], (c :: t). cbn. rewrite E. auto.
Qed.

(** ** longest match *)
Lemma take_chars_prefix n cs : exists rest, cs = take_chars n cs ++ rest.
Proof.
  revert cs. induction n as [|n IH]; intros [|c t]; cbn; eauto.
  destruct (c =? EOF); [exists (c :: t); reflexivity|]. destruct (IH t) as (rest & H). exists rest. cbn. f_equal. exact H.
Qed.

(** a prefix of length at most n without EOF characters is a prefix of what take_chars returns *)
Lemma take_chars_all n k rest : (length k <= n)%nat -> Forall (fun c => c <> EOF) k ->
  exists r, take_chars n (k ++ rest) = k ++ r.
Proof.
  revert n. induction k as [|c k IH]; intros n Hl Hk; cbn; [eauto|].
  destruct n as [|n]; [cbn in Hl; lia|]. cbn. inversion Hk; subst.
  replace (c =? EOF) with false by lia. cbn in Hl. destruct (IH n ltac:(lia) H2) as (r & ->). eauto.
Qed.

Lemma longest_match_sound {V} (m : res (map name V)) t
  (Hm : forall s o, lookup_name m s = Ok o -> o = assoc t s) str : forall n o,
  longest_match m n str = Ok o ->
  match o with
  | Some (v, k) => (1 <= k <= n)%nat /\ assoc t (firstn k str) = Some v /\
      forall j, (k < j <= n)%nat -> assoc t (firstn j str) = None
  | None => forall j, (1 <= j <= n)%nat -> assoc t (firstn j str) = None
  end.
Proof.
  induction n as [|n IH]; intros o H; cbn [longest_match] in H.
  - injection H as <-. intros; lia.
  - destruct (lookup_name m (firstn (S n) str)) as [o1| | | |] eqn:E; cbn [bind] in H; try discriminate.
    apply Hm in E. destruct o1 as [v|].
    + injection H as <-. split; [lia|]. split; [congruence|]. intros; lia.
    + specialize (IH o H). destruct o as [[v k]|].
      * destruct IH as (H1 & H2 & H3). split; [lia|]. split; [assumption|].
        intros j Hj. destruct (Nat.eq_dec j (S n)) as [->|]; [congruence|apply H3; lia].
      * intros j Hj. destruct (Nat.eq_dec j (S n)) as [->|]; [congruence|apply IH; lia].
Qed.

Lemma Forall_firstn {A} (P : A -> Prop) n l : Forall P l -> Forall P (firstn n l).
Proof. intros H. revert n. induction H; intros [|n]; cbn; constructor; auto. Qed.
Lemma Forall_skipn {A} (P : A -> Prop) n l : Forall P l -> Forall P (skipn n l).
Proof. intros H. revert n. induction H; intros [|n]; cbn; auto. Qed.

Lemma longest_match_defined {V} (m : res (map name V)) t
  (Hm : forall s, Forall (fun c => 0 <= c) s -> lookup_name m s = Ok (assoc t s)) str : forall n,
  Forall (fun c => 0 <= c) str -> exists o, longest_match m n str = Ok o.
Proof.
  induction n as [|n IH]; intros H; cbn [longest_match]; [eauto|].
  rewrite Hm by (apply Forall_firstn; assumption). cbn [bind]. destruct (assoc t _); eauto.
Qed.

(** tables used with take_chars 3 *)
Definition short_table {V} (t : list (name * V)) : bool :=
  forallb (fun p => (length (fst p) <=? 3)%nat && negb (name_eqb (fst p) []) && forallb (fun c => negb (c =? EOF)) (fst p)) t.

Lemma longest_entry_sound {V} (m : res (map name V)) t cs o
  (Hm : forall s o, lookup_name m s = Ok o -> o = assoc t s) :
  short_table t = true ->
  longest_match m (length (take_chars 3 cs)) (take_chars 3 cs) = Ok o ->
  match o with
  | Some (v, k) => exists p rest, cs = p ++ rest /\ k = length p /\ p <> [] /\ assoc t p = Some v /\ longest_entry t p cs
  | None => longest_entry t [] cs
  end.
Proof.
  intros Hs H. apply (longest_match_sound m t Hm) in H.
  destruct (take_chars_prefix 3 cs) as (rest & Hcs). set (str := take_chars 3 cs) in *.
  assert (Hmax : forall k v r, In (k, v) t -> cs = k ++ r ->
    exists j, (1 <= j <= length str)%nat /\ firstn j str = k /\ j = length k).
  { intros k v r Hin Heq. unfold short_table in Hs. rewrite forallb_forall in Hs. specialize (Hs _ Hin). cbn in Hs.
    apply andb_prop in Hs. destruct Hs as (Hs & He). apply andb_prop in Hs. destruct Hs as (Hl & Hne).
    destruct (take_chars_all 3 k r) as (r' & Hr').
    - lia.
    - rewrite forallb_forall in He. rewrite Forall_forall. intros c Hc. specialize (He c Hc). lia.
    - rewrite <- Heq in Hr'. fold str in Hr'. exists (length k). rewrite Hr'. rewrite app_length.
      split; [|split; [|reflexivity]].
      + destruct k; [discriminate Hne|cbn; lia].
      + rewrite firstn_app, firstn_all, Nat.sub_diag, firstn_O, app_nil_r. reflexivity. }
  destruct o as [[v k]|].
  - destruct H as (Hk & Ha & Hno). exists (firstn k str), (skipn k str ++ rest).
    assert (Hlen : length (firstn k str) = k) by (rewrite firstn_length; lia).
    assert (Hcs' : cs = firstn k str ++ skipn k str ++ rest) by (rewrite app_assoc, firstn_skipn; exact Hcs).
    split; [exact Hcs'|]. split; [lia|].
    split; [intros E; rewrite E in Hlen; cbn in Hlen; lia|]. split; [exact Ha|].
    split; [intros _; congruence|]. split; [eauto|].
    intros k' v' r Hin Heq. destruct (Hmax _ _ _ Hin Heq) as (j & Hj & Hf & Hjl).
    destruct (Nat.le_gt_cases j k) as [|Hgt]; [lia|]. exfalso.
    specialize (Hno j ltac:(lia)). rewrite Hf in Hno. eapply assoc_none; eauto.
  - split; [congruence|]. split; [exists cs; reflexivity|].
    intros k' v' r Hin Heq. destruct (Hmax _ _ _ Hin Heq) as (j & Hj & Hf & Hjl).
    specialize (H j ltac:(lia)). rewrite Hf in H. exfalso. eapply assoc_none; eauto.
Qed.

Lemma longest_entry_unique {V} (t : list (name * V)) p q cs :
  longest_entry t p cs -> longest_entry t q cs -> p = q.
Proof.
  intros (Hp1 & (r1 & Hr1) & Hp3) (Hq1 & (r2 & Hr2) & Hq3).
  assert (H : forall p q r1 r2, (p <> [] -> assoc t p <> None) -> cs = p ++ r1 -> cs = q ++ r2 ->
    (forall k v rest, In (k, v) t -> cs = k ++ rest -> (length k <= length q)%nat) -> (length p <= length q)%nat).
  { intros p0 q0 r3 r4 H1 H2 H3 H4. destruct p0 as [|c p0]; [cbn; lia|].
    destruct (assoc t (c :: p0)) as [v|] eqn:E; [|destruct (H1 ltac:(discriminate)); reflexivity].
    apply assoc_in in E. eapply H4; eauto. }
  pose proof (H p q r1 r2 Hp1 Hr1 Hr2 Hq3). pose proof (H q p r2 r1 Hq1 Hr2 Hr1 Hp3).
  assert (Hl : length p = length q) by lia. rewrite Hr1 in Hr2.
  clear - Hl Hr2. revert q Hl Hr2. induction p as [|c p IH]; intros [|d q] Hl H; cbn in *; try discriminate; [reflexivity|].
  injection H as -> H. f_equal. apply IH; [lia|assumption].
Qed.
