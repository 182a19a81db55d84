(** The lexer against the token specification: literals and whole texts. *)
From Verif Require Import Base MapModel SetModel MapSpec MapProofs MapProofs2 SetProofs LiteralModel LexerModel LexSpec LexProofs.
Local Open Scope Z_scope.

Lemma number_nonneg base ds : 0 <= base -> forallb hexdigit ds = true -> 0 <= number base ds.
Proof.
  intros Hb. induction ds as [|d t IH]; cbn; [lia|]. intros H. apply andb_prop in H. destruct H as (H1 & H2).
  assert (0 <= dval d) by (unfold hexdigit, digit, lower, dval, digit, lower in *;
    repeat match goal with |- context [if ?b then _ else _] => destruct b eqn:? end; lia).
  assert (0 <= base ^ Z.of_nat (length t)) by (apply Z.pow_nonneg; lia). specialize (IH H2). nia.
Qed.

Lemma number_app base a b : number base (a ++ b) = number base a * base ^ Z.of_nat (length b) + number base b.
Proof.
  induction a as [|d t IH]; cbn [app number]; [lia|]. rewrite IH, app_length, Nat2Z.inj_add, Z.pow_add_r by lia. ring.
Qed.

(** ** escapes *)
Lemma hex_loop_spec cs : forall v, Forall is_char cs -> 0 <= v <= INT_MAX ->
  exists w rest, cs = w ++ rest /\ forallb hexdigit w = true /\ head_is hexdigit rest = false /\
    hex_loop v cs = if v * 16 ^ Z.of_nat (length w) + number 16 w <=? INT_MAX
                    then Ok (v * 16 ^ Z.of_nat (length w) + number 16 w, rest) else UB.
Proof.
  induction cs as [|c t IH]; intros v Hc Hv; cbn [hex_loop].
  - rewrite lookup_hex_spec by apply ischar_eof. cbn [bind]. exists [], []. do 3 (split; [reflexivity|]).
    cbn [length number]. change (Z.of_nat 0) with 0. rewrite Z.pow_0_r. replace (v * 1 + 0) with v by lia.
    destruct (v <=? INT_MAX) eqn:E; [reflexivity|lia].
  - inversion Hc; subst. rewrite lookup_hex_spec by assumption. cbn [bind]. destruct (hexdigit c) eqn:E.
    + assert (Hd : 0 <= dval c) by (pose proof (number_nonneg 16 [c] ltac:(lia)) as G; cbn in G; rewrite E in G;
        specialize (G eq_refl); lia).
      destruct (INT_MAX <? v * 16 + dval c) eqn:Eo.
      * destruct (digits_spec hexdigit_map hexdigit t) as (w & rest & _ & Heq & H3 & H4); auto using is_hexdigit_spec.
        exists (c :: w), rest. split; [cbn; congruence|]. split; [cbn; rewrite E; assumption|]. split; [assumption|].
        pose proof (number_nonneg 16 w ltac:(lia) H3).
        replace (v * 16 ^ Z.of_nat (length (c :: w)) + number 16 (c :: w))
          with ((v * 16 + dval c) * 16 ^ Z.of_nat (length w) + number 16 w)
          by (cbn [number length]; rewrite Nat2Z.inj_succ, Z.pow_succ_r by lia; ring).
        assert (1 <= 16 ^ Z.of_nat (length w)) by (pose proof (Z.pow_pos_nonneg 16 (Z.of_nat (length w))); lia).
        replace (_ <=? INT_MAX) with false; [reflexivity|]. symmetry. apply Z.leb_gt. nia.
      * destruct (IH (v * 16 + dval c) H2) as (w & rest & -> & H3 & H4 & ->); [lia|].
        exists (c :: w), rest. split; [reflexivity|]. split; [cbn; rewrite E; assumption|]. split; [assumption|].
        replace (v * 16 ^ Z.of_nat (length (c :: w)) + number 16 (c :: w))
          with ((v * 16 + dval c) * 16 ^ Z.of_nat (length w) + number 16 w)
          by (cbn [number length]; rewrite Nat2Z.inj_succ, Z.pow_succ_r by lia; ring).
        reflexivity.
    + exists [], (c :: t). split; [reflexivity|]. split; [reflexivity|]. split; [exact E|].
      cbn [length number]. change (Z.of_nat 0) with 0. rewrite Z.pow_0_r. replace (v * 1 + 0) with v by lia.
      destruct (v <=? INT_MAX) eqn:E'; [reflexivity|lia].
Qed.

Lemma dval_hex_range c : hexdigit c = true -> 0 <= dval c <= 15.
Proof.
  unfold hexdigit, dval, digit, lower. intros H.
  repeat match goal with |- context [if ?b then _ else _] => destruct b eqn:? end; lia.
Qed.

(** [\x]: at least one digit, as many as possible *)
Lemma read_hex_spec c t : Forall is_char (c :: t) -> hexdigit c = true ->
  exists w rest, t = w ++ rest /\ forallb hexdigit w = true /\ head_is hexdigit rest = false /\
    read_hex_escape (c :: t) = if number 16 (c :: w) <=? INT_MAX then Ok (number 16 (c :: w), rest) else UB.
Proof.
  intros Hc Hh. inversion Hc; subst. unfold read_hex_escape. cbn [get_top advance].
  rewrite lookup_hex_spec by assumption. rewrite Hh. cbn [bind deref].
  destruct (hex_loop_spec t (dval c) H2) as (w & rest & -> & H3 & H4 & ->).
  { pose proof (dval_hex_range c Hh). unfold INT_MAX. lia. }
  exists w, rest. auto.
Qed.

Lemma octal_loop_spec n : forall v cs, Forall is_char cs ->
  exists w rest, cs = w ++ rest /\ forallb octdigit w = true /\ (length w <= n)%nat /\
    (head_is octdigit rest = false \/ length w = n) /\
    octal_loop n v cs = Ok (v * 8 ^ Z.of_nat (length w) + number 8 w, rest).
Proof.
  induction n as [|n IH]; intros v cs Hc; cbn [octal_loop].
  - exists [], cs. do 3 (split; [reflexivity||(cbn; lia)|]). split; [right; reflexivity|].
    cbn [length number]. change (Z.of_nat 0) with 0. rewrite Z.pow_0_r. do 2 f_equal. lia.
  - rewrite lookup_oct_spec by (apply ischar_top; assumption). cbn [bind].
    destruct cs as [|c t]; cbn [get_top advance].
    + exists [], []. do 3 (split; [reflexivity||(cbn; lia)|]). split; [left; reflexivity|].
      cbn [length number]. change (Z.of_nat 0) with 0. rewrite Z.pow_0_r.
      replace (octdigit EOF) with false by reflexivity. do 2 f_equal. lia.
    + inversion Hc; subst. destruct (octdigit c) eqn:E.
      * destruct (IH (v * 8 + dval c) t H2) as (w & rest & -> & H3 & H4 & H5 & ->).
        exists (c :: w), rest. split; [reflexivity|]. split; [cbn; rewrite E; assumption|]. split; [cbn; lia|].
        split; [destruct H5; [auto|right; cbn; lia]|].
        do 2 f_equal. cbn [number length]. rewrite Nat2Z.inj_succ, Z.pow_succ_r by lia. ring.
      * exists [], (c :: t). do 3 (split; [reflexivity||(cbn; lia)|]). split; [left; exact E|].
        cbn [length number]. change (Z.of_nat 0) with 0. rewrite Z.pow_0_r. do 2 f_equal. lia.
Qed.

Lemma read_oct_spec c t : Forall is_char (c :: t) -> octdigit c = true ->
  exists w rest, t = w ++ rest /\ forallb octdigit (c :: w) = true /\ (length w <= 2)%nat /\
    (head_is octdigit rest = false \/ length w = 2%nat) /\
    read_octal_escape (c :: t) = Ok (number 8 (c :: w), rest).
Proof.
  intros Hc Hh. inversion Hc; subst. unfold read_octal_escape. cbn [get_top advance].
  rewrite lookup_oct_spec by assumption. rewrite Hh. cbn [bind deref].
  destruct (octal_loop_spec 2 (dval c) t H2) as (w & rest & -> & H3 & H4 & H5 & ->).
  exists w, rest. cbn [forallb]. rewrite Hh. auto.
Qed.

Lemma bounded_unique (f : Z -> bool) n w1 r1 w2 r2 :
  w1 ++ r1 = w2 ++ r2 -> forallb f w1 = true -> forallb f w2 = true ->
  (length w1 <= n)%nat -> (length w2 <= n)%nat ->
  (head_is f r1 = false \/ length w1 = n) -> (head_is f r2 = false \/ length w2 = n) -> w1 = w2 /\ r1 = r2.
Proof.
  revert n w2. induction w1 as [|c w1 IH]; intros n [|d w2] H H1 H2 H3 H4 H5 H6; cbn in *.
  - auto.
  - subst r1. cbn in H5. apply andb_prop in H2. destruct H2 as (H2 & _). destruct H5; [congruence|lia].
  - subst r2. cbn in H6. apply andb_prop in H1. destruct H1 as (H1 & _). destruct H6; [congruence|lia].
  - injection H as -> H. apply andb_prop in H1, H2. destruct H1 as (H1 & H1'), H2 as (H2 & H2').
    destruct n as [|n]; [lia|].
    destruct (IH n w2 H) as (-> & ->); auto; [lia|lia|destruct H5; [auto|right; lia]|destruct H6; [auto|right; lia]].
Qed.

Definition is_plain (e : elem) : bool := match e with Plain _ => false | _ => true end.

Lemma simple_sound cs v cs' : read_simple_escape cs = Ok (v, cs') ->
  exists c, cs = c :: cs' /\ existsb (fun p => fst p =? c) simple_escapes = true /\ elem_value (Simple c) = v.
Proof.
  destruct cs as [|c t].
  - cbn. discriminate.
  - unfold read_simple_escape. cbn [get_top advance]. intros H. exists c.
    repeat match type of H with
    | (if c =? ?k then _ else _) = _ => destruct (c =? k) eqn:?;
        [match goal with E : (c =? k) = true |- _ => apply Z.eqb_eq in E; subst c end;
         injection H as <- <-; cbn; auto|]
    end. discriminate.
Qed.

Lemma simple_complete c rest : existsb (fun p => fst p =? c) simple_escapes = true ->
  read_simple_escape (c :: rest) = Ok (elem_value (Simple c), rest).
Proof.
  intros H. apply existsb_exists in H. destruct H as (p & Hin & E). apply Z.eqb_eq in E. subst c.
  repeat (destruct Hin as [<-|Hin]; [reflexivity|]). destruct Hin.
Qed.

Lemma head_split (f : Z -> bool) (l : list Z) : l <> [] -> forallb f l = true -> exists c t, l = c :: t /\ f c = true /\ forallb f t = true.
Proof. destruct l as [|c t]; [congruence|]. intros _ H. cbn in H. apply andb_prop in H. destruct H. eauto. Qed.

Lemma esc_complete q e rest : is_plain e = true -> elem_ok q e rest = true -> Forall is_char (elem_text e ++ rest) ->
  read_escape (tl (elem_text e) ++ rest) = Ok (elem_value e, rest).
Proof.
  intros Hp Ho Hc. destruct e as [c|c|ds|ds]; [discriminate| | |]; cbn [elem_text tl app elem_ok] in *.
  - inversion Hc; subst. inversion H2; subst. unfold read_escape. cbn [get_top advance].
    rewrite is_hexdigit_spec by (apply ischar_top; assumption). cbn [bind].
    assert (Hx : (c =? 120) = false /\ octdigit c = false).
    { apply existsb_exists in Ho. destruct Ho as (p & Hin & E). apply Z.eqb_eq in E. subst c.
      repeat (destruct Hin as [<-|Hin]; [split; reflexivity|]). destruct Hin. }
    destruct Hx as (-> & Hx). cbn [andb]. rewrite is_octdigit_spec by assumption. rewrite Hx. cbn [bind].
    apply simple_complete; assumption.
  - repeat (apply andb_prop in Ho; destruct Ho as (Ho & ?)). inversion Hc; subst.
    destruct (head_split octdigit ds) as (c & t & -> & Hc1 & Hc2); [intros ->; cbn in H1; discriminate|assumption|].
    cbn [app] in *. inversion H5; subst. unfold read_escape. cbn [get_top advance].
    rewrite is_hexdigit_spec by (apply ischar_top; assumption). cbn [bind].
    replace (c =? 120) with false by (unfold octdigit in Hc1; lia). cbn [andb].
    rewrite is_octdigit_spec by assumption. rewrite Hc1. cbn [bind].
    destruct (read_oct_spec c (t ++ rest)) as (w & rest' & Heq & G1 & G2 & G3 & ->); [assumption|assumption|].
    cbn [forallb] in G1. apply andb_prop in G1. destruct G1 as (_ & G1).
    destruct (bounded_unique octdigit 2 t rest w rest') as (-> & ->); auto; [cbn in H0; lia|].
    apply orb_prop in H. destruct H as [H|H]; [left; destruct (head_is octdigit rest); [discriminate|reflexivity]|right; cbn in H; lia].
  - repeat (apply andb_prop in Ho; destruct Ho as (Ho & ?)). inversion Hc; subst. inversion H5; subst.
    destruct (head_split hexdigit ds) as (c & t & -> & Hc1 & Hc2); [intros ->; cbn in H1; discriminate|assumption|].
    cbn [app] in *. inversion H7; subst. unfold read_escape. cbn [get_top advance].
    rewrite is_hexdigit_spec by assumption. rewrite Hc1. cbn [bind]. change (120 =? 120) with true. cbn [andb].
    destruct (read_hex_spec c (t ++ rest)) as (w & rest' & Heq & G1 & G2 & ->); [assumption|assumption|].
    destruct (split_unique hexdigit t rest w rest') as (-> & ->); auto.
    { destruct (head_is hexdigit rest); [discriminate|reflexivity]. }
    rewrite H. reflexivity.
Qed.

Lemma esc_sound q cs v cs' : Forall is_char cs -> read_escape cs = Ok (v, cs') ->
  exists e, is_plain e = true /\ 92 :: cs = elem_text e ++ cs' /\ elem_ok q e cs' = true /\ elem_value e = v /\ tl (elem_text e) <> [].
Proof.
  intros Hc H. unfold read_escape in H.
  rewrite is_hexdigit_spec in H by (apply ischar_top; destruct Hc; cbn; [constructor|assumption]). cbn [bind] in H.
  destruct ((get_top cs =? 120) && hexdigit (get_top (advance cs))) eqn:E.
  - apply andb_prop in E. destruct E as (E1 & E2). apply Z.eqb_eq in E1.
    destruct cs as [|c t]; [discriminate E1|]. cbn [get_top advance] in *. subst c. inversion Hc; subst.
    destruct t as [|c t]; [discriminate E2|]. cbn [get_top] in E2.
    destruct (read_hex_spec c t) as (w & rest' & -> & G1 & G2 & G3); [assumption|assumption|].
    rewrite G3 in H. destruct (number 16 (c :: w) <=? INT_MAX) eqn:E; [|discriminate].
    injection H as <- <-. exists (Hex (c :: w)). split; [reflexivity|]. split; [reflexivity|].
    split; [|split; [reflexivity|discriminate]]. cbn [elem_ok forallb]. rewrite E2, G1, G2, E. reflexivity.
  - rewrite is_octdigit_spec in H by (apply ischar_top; assumption). cbn [bind] in H.
    destruct (octdigit (get_top cs)) eqn:Eo.
    + destruct cs as [|c t]; [discriminate Eo|]. cbn [get_top] in Eo.
      destruct (read_oct_spec c t) as (w & rest' & -> & G1 & G2 & G4 & G3); [assumption|assumption|].
      rewrite G3 in H. injection H as <- <-. exists (Oct (c :: w)). split; [reflexivity|]. split; [reflexivity|].
      split; [|split; [reflexivity|discriminate]]. cbn [elem_ok]. rewrite G1.
      replace (1 <=? length (c :: w))%nat with true by reflexivity.
      replace (length (c :: w) <=? 3)%nat with true by (symmetry; apply Nat.leb_le; cbn; lia).
      cbn [andb]. apply orb_true_iff. destruct G4 as [->|G4]; [left; reflexivity|right; apply Nat.eqb_eq; cbn; lia].
    + apply simple_sound in H. destruct H as (c & -> & H1 & H2). exists (Simple c).
      repeat (split; [assumption || reflexivity|]). discriminate.
Qed.

Lemma escape_cases e : is_plain e = true -> exists t, elem_text e = 92 :: t.
Proof. destruct e; cbn; [discriminate|eauto|eauto|eauto]. Qed.

(** ** quoted elements *)
Lemma string_complete es rest : forall fuel,
  elems_ok 34 es (34 :: rest) = true -> Forall is_char (elems_text es ++ 34 :: rest) -> (length es < fuel)%nat ->
  string_loop fuel (elems_text es ++ 34 :: rest) = Ok (List.map (fun e => wraps 8 (elem_value e)) es, rest).
Proof.
  induction es as [|e es IH]; intros fuel Ho Hc Hf; (destruct fuel as [|f]; [cbn in Hf; lia|]); cbn [length] in Hf.
  - reflexivity.
  - cbn [elems_ok] in Ho. apply andb_prop in Ho. destruct Ho as (Ho1 & Ho2).
    unfold elems_text in *. cbn [flat_map] in *. rewrite <- app_assoc in *. fold (elems_text es) in *.
    assert (Hc' : Forall is_char (elems_text es ++ 34 :: rest)) by (apply Forall_app in Hc; apply Hc).
    destruct (is_plain e) eqn:Ep.
    + pose proof (esc_complete 34 e _ Ep Ho1 Hc) as G. destruct (escape_cases e Ep) as (t & Et). rewrite Et in *.
      cbn [app tl string_loop get_top advance] in *. change (92 =? 34) with false. change (92 =? 92) with true. cbn [bind].
      rewrite G. cbn [bind fst snd]. rewrite IH by (assumption || lia). reflexivity.
    + destruct e as [c| | |]; try discriminate. cbn [elem_text app string_loop get_top advance elem_ok] in *.
      apply andb_prop in Ho1. destruct Ho1 as (Ho1 & Hn). apply andb_prop in Ho1. destruct Ho1 as (Hq & Hb).
      apply negb_true_iff in Hq, Hb, Hn. rewrite Hq, Hb, Hn. cbn [bind fst snd]. rewrite IH by (assumption || lia). reflexivity.
Qed.

Lemma string_nil f : string_loop f [] = Fuel.
Proof. induction f as [|f IH]; [reflexivity|]. cbn. rewrite IH. reflexivity. Qed.

Lemma string_sound fuel : forall cs vs cs', Forall is_char cs -> string_loop fuel cs = Ok (vs, cs') ->
  exists es, cs = elems_text es ++ 34 :: cs' /\ elems_ok 34 es (34 :: cs') = true /\
    vs = List.map (fun e => wraps 8 (elem_value e)) es.
Proof.
  induction fuel as [|f IH]; intros cs vs cs' Hc H; [discriminate|].
  destruct cs as [|c t]; [rewrite string_nil in H; discriminate|]. cbn [string_loop get_top advance] in H.
  inversion Hc; subst. destruct (c =? 34) eqn:Eq.
  - apply Z.eqb_eq in Eq. subst c. injection H as <- <-. exists []. auto.
  - destruct (c =? 92) eqn:Eb.
    + apply Z.eqb_eq in Eb. subst c. destruct (read_escape t) as [[v t1]| | | |] eqn:Ee; cbn [bind fst snd] in H; try discriminate.
      destruct (string_loop f t1) as [[vs1 t2]| | | |] eqn:Es; cbn [bind fst snd] in H; try discriminate.
      injection H as <- <-. destruct (esc_sound 34 _ _ _ H3 Ee) as (e & G1 & G2 & G3 & G4 & _).
      assert (Ht1 : Forall is_char t1).
      { rewrite G2 in Hc. apply Forall_app in Hc. apply Hc. }
      destruct (IH _ _ _ Ht1 Es) as (es & -> & F2 & ->). exists (e :: es). unfold elems_text. cbn [flat_map elems_ok List.map].
      fold (elems_text es). rewrite <- app_assoc. split; [exact G2|]. rewrite G3, F2, G4. auto.
    + destruct (c =? 10) eqn:En; cbn [bind fst snd] in H; try discriminate.
      destruct (string_loop f t) as [[vs1 t2]| | | |] eqn:Es; cbn [bind fst snd] in H; try discriminate.
      injection H as <- <-. destruct (IH _ _ _ H3 Es) as (es & -> & F2 & ->). exists (Plain c :: es).
      cbn. rewrite F2, Eq, Eb, En. auto.
Qed.

Lemma char_rest_complete es rest : forall fuel,
  elems_ok 39 es (39 :: rest) = true -> Forall is_char (elems_text es ++ 39 :: rest) -> (length es < fuel)%nat ->
  char_rest_loop fuel (elems_text es ++ 39 :: rest) = Ok rest.
Proof.
  induction es as [|e es IH]; intros fuel Ho Hc Hf; (destruct fuel as [|f]; [cbn in Hf; lia|]); cbn [length] in Hf.
  - reflexivity.
  - cbn [elems_ok] in Ho. apply andb_prop in Ho. destruct Ho as (Ho1 & Ho2).
    unfold elems_text in *. cbn [flat_map] in *. rewrite <- app_assoc in *. fold (elems_text es) in *.
    assert (Hc' : Forall is_char (elems_text es ++ 39 :: rest)) by (apply Forall_app in Hc; apply Hc).
    destruct (is_plain e) eqn:Ep.
    + pose proof (esc_complete 39 e _ Ep Ho1 Hc) as G. destruct (escape_cases e Ep) as (t & Et). rewrite Et in *.
      cbn [app tl char_rest_loop get_top advance] in *. change (92 =? 39) with false. change (92 =? 92) with true. cbn [bind].
      rewrite G. cbn [bind fst snd]. rewrite IH by (assumption || lia). reflexivity.
    + destruct e as [c| | |]; try discriminate. cbn [elem_text app char_rest_loop get_top advance elem_ok] in *.
      apply andb_prop in Ho1. destruct Ho1 as (Ho1 & Hn). apply andb_prop in Ho1. destruct Ho1 as (Hq & Hb).
      apply negb_true_iff in Hq, Hb, Hn. rewrite Hq, Hb, Hn. cbn [bind fst snd]. rewrite IH by (assumption || lia). reflexivity.
Qed.

Lemma char_rest_nil f : char_rest_loop f [] = Fuel.
Proof. induction f as [|f IH]; [reflexivity|]. cbn. rewrite IH. reflexivity. Qed.

Lemma char_rest_sound fuel : forall cs cs', Forall is_char cs -> char_rest_loop fuel cs = Ok cs' ->
  exists es, cs = elems_text es ++ 39 :: cs' /\ elems_ok 39 es (39 :: cs') = true.
Proof.
  induction fuel as [|f IH]; intros cs cs' Hc H; [discriminate|].
  destruct cs as [|c t]; [rewrite char_rest_nil in H; discriminate|]. cbn [char_rest_loop get_top advance] in H.
  inversion Hc; subst. destruct (c =? 39) eqn:Eq.
  - apply Z.eqb_eq in Eq. subst c. injection H as <-. exists []. auto.
  - destruct (c =? 92) eqn:Eb.
    + apply Z.eqb_eq in Eb. subst c. destruct (read_escape t) as [[v t1]| | | |] eqn:Ee; cbn [bind fst snd] in H; try discriminate.
      destruct (esc_sound 39 _ _ _ H3 Ee) as (e & G1 & G2 & G3 & G4 & _).
      assert (Ht1 : Forall is_char t1).
      { rewrite G2 in Hc. apply Forall_app in Hc. apply Hc. }
      destruct (IH _ _ Ht1 H) as (es & -> & F2). exists (e :: es). unfold elems_text. cbn [flat_map elems_ok List.map].
      fold (elems_text es). rewrite <- app_assoc. split; [exact G2|]. rewrite G3, F2. auto.
    + destruct (c =? 10) eqn:En; cbn [bind fst snd] in H; try discriminate.
      destruct (IH _ _ H3 H) as (es & -> & F2). exists (Plain c :: es).
      cbn. rewrite F2, Eq, Eb, En. auto.
Qed.
