(** The lexer against the token specification: whole texts, termination. *)
From Verif Require Import Base MapModel SetModel MapSpec MapProofs MapProofs2 SetProofs LiteralModel LexerModel LexSpec LexProofs LexProofs2.
Local Open Scope Z_scope.

Definition nonneg (cs : list Z) : Prop := Forall (fun c => 0 <= c) cs.

Lemma skipn_app_length {A} (p r : list A) : skipn (length p) (p ++ r) = r.
Proof. rewrite skipn_app, skipn_all, Nat.sub_diag. reflexivity. Qed.

(** ** suffixes and punctuators *)
Lemma suffix_short : short_table suffixes = true. Proof. vm_compute. reflexivity. Qed.
Lemma punct_short : short_table punctuators = true. Proof. vm_compute. reflexivity. Qed.

Lemma no_entry_at_eof {V} (t : list (name * V)) cs : short_table t = true -> get_top cs = EOF -> longest_entry t [] cs.
Proof.
  intros Hs Ht. split; [congruence|]. split; [exists cs; reflexivity|].
  intros k v rest Hin ->. unfold short_table in Hs. rewrite forallb_forall in Hs. specialize (Hs _ Hin). cbn in Hs.
  apply andb_prop in Hs. destruct Hs as (Hs & He). apply andb_prop in Hs. destruct Hs as (_ & Hne).
  destruct k as [|c k]; [discriminate|]. cbn in Ht, He. subst c. discriminate.
Qed.

Lemma suffix_sound cs t cs' : read_suffix cs = Ok (t, cs') ->
  exists suf, cs = suf ++ cs' /\ suffix_type suf = Some t /\ longest_entry suffixes suf cs.
Proof.
  unfold read_suffix. destruct (get_top cs =? EOF) eqn:E.
  - apply Z.eqb_eq in E. intros H. injection H as <- <-. exists []. split; [reflexivity|]. split; [reflexivity|].
    apply no_entry_at_eof; [apply suffix_short|assumption].
  - destruct (longest_match _ _ _) as [o| | | |] eqn:El; cbn [bind]; try discriminate.
    apply (longest_entry_sound _ suffixes) in El; [|apply suffix_ok|apply suffix_short].
    destruct o as [[v k]|].
    + destruct El as (p & rest & -> & -> & Hne & Ha & Hl). intros H. injection H as <- <-.
      exists p. rewrite skipn_app_length. split; [reflexivity|]. split; [|assumption].
      unfold suffix_type. destruct p; [congruence|]. assumption.
    + intros H. injection H as <- <-. exists []. auto.
Qed.

Lemma suffix_complete suf rest : nonneg (suf ++ rest) -> longest_entry suffixes suf (suf ++ rest) ->
  exists t, suffix_type suf = Some t /\ read_suffix (suf ++ rest) = Ok (t, rest).
Proof.
  intros Hn Hl.
  assert (exists t cs', read_suffix (suf ++ rest) = Ok (t, cs')) as (t & cs' & Hr).
  { unfold read_suffix. destruct (_ =? EOF); [eauto|].
    destruct (longest_match_defined suffix_map suffixes (proj2 suffix_ok) (take_chars 3 (suf ++ rest)) (length (take_chars 3 (suf ++ rest)))) as (o & ->).
    - destruct (take_chars_prefix 3 (suf ++ rest)) as (r & Hr). unfold nonneg in Hn. rewrite Hr in Hn. apply Forall_app in Hn. apply Hn.
    - cbn [bind]. destruct o as [[v k]|]; eauto. }
  pose proof (suffix_sound _ _ _ Hr) as (suf' & H1 & H2 & H3).
  pose proof (longest_entry_unique _ _ _ _ Hl H3) as <-. apply app_inv_head in H1. subst cs'. eauto.
Qed.

Lemma punct_sound cs t cs' : read_punctuator cs = Ok (t, cs') ->
  (t = TTok CtEOF /\ cs' = cs /\ get_top cs = EOF) \/
  exists s, cs = s ++ cs' /\ token_ok (SPunct s) cs' /\ meaning (SPunct s) = Some t.
Proof.
  unfold read_punctuator. destruct (get_top cs =? EOF) eqn:E.
  - apply Z.eqb_eq in E. intros H. injection H as <- <-. auto.
  - destruct (longest_match _ _ _) as [o| | | |] eqn:El; cbn [bind]; try discriminate.
    apply (longest_entry_sound _ punctuators) in El; [|apply punct_ok|apply punct_short].
    destruct o as [[v k]|]; [|discriminate].
    destruct El as (p & rest & -> & -> & Hne & Ha & Hl). intros H. injection H as <- <-. right.
    exists p. rewrite skipn_app_length. cbn [token_ok meaning]. rewrite Ha. auto.
Qed.

Lemma punct_complete s rest : nonneg (s ++ rest) -> token_ok (SPunct s) rest ->
  exists t, meaning (SPunct s) = Some t /\ read_punctuator (s ++ rest) = Ok (t, rest).
Proof.
  intros Hn (Hne & Hl).
  destruct (longest_match_defined punctuator_map punctuators (proj2 punct_ok) (take_chars 3 (s ++ rest)) (length (take_chars 3 (s ++ rest)))) as (o & Ho).
  { destruct (take_chars_prefix 3 (s ++ rest)) as (r & Hr). unfold nonneg in Hn. rewrite Hr in Hn. apply Forall_app in Hn. apply Hn. }
  pose proof Ho as Ho'. apply (longest_entry_sound _ punctuators) in Ho'; [|apply punct_ok|apply punct_short].
  unfold read_punctuator. replace (_ =? EOF) with false.
  2:{ symmetry. destruct s as [|c s]; [congruence|]. inversion Hn; subst. cbn. unfold EOF. lia. }
  rewrite Ho. cbn [bind]. destruct o as [[v k]|].
  - destruct Ho' as (p & r & H1 & -> & H3 & H4 & H5). pose proof (longest_entry_unique _ _ _ _ Hl H5) as <-.
    cbn [meaning]. rewrite H4, skipn_app_length. eauto.
  - pose proof (longest_entry_unique _ _ _ _ Hl Ho'). congruence.
Qed.

(** ** one token *)
Lemma read_token_sound fuel cs t cs' : Forall is_char cs -> nonul cs -> read_token fuel cs = Ok (t, cs') ->
  (t = TTok CtEOF /\ cs' = cs /\ get_top cs = EOF) \/
  exists s, cs = spell s ++ cs' /\ token_ok s cs' /\ meaning s = Some t.
Proof.
  intros Hc Hn H. unfold read_token in H.
  rewrite is_in_nondigit in H by (apply ischar_top; assumption). cbn [bind] in H.
  destruct cs as [|c cs].
  { cbn [get_top] in H. rewrite is_digit_spec in H by apply ischar_eof. cbn in H. injection H as <- <-. auto. }
  cbn [get_top] in H. inversion Hc; subst. inversion Hn; subst. replace (c =? 0) with false in H by lia. rewrite orb_false_r in H.
  destruct (nondigit c) eqn:End.
  - right. unfold read_keyword_or_identifier in H. cbn [get_top advance] in H.
    destruct (ident_spec cs) as (w & rest & Hi & -> & H6 & H7); [assumption|assumption|]. rewrite Hi in H. cbn [bind fst snd] in H.
    destruct (lookup_name keyword_map (c :: w)) as [o| | | |] eqn:Ek; cbn [bind] in H; try discriminate.
    apply keyword_ok in Ek. exists (SWord c w). split.
    + destruct o; injection H as <- <-; reflexivity.
    + cbn [token_ok meaning]. rewrite <- Ek. destruct o; injection H as <- <-; auto.
  - rewrite is_digit_spec in H by assumption. cbn [bind] in H. destruct (digit c) eqn:Ed.
    + right. unfold read_integer_constant in H. cbn [get_top advance] in H. destruct (c =? 48) eqn:E0.
      * apply Z.eqb_eq in E0. subst c. cbn [andb] in H.
        destruct ((get_top cs =? 120) || (get_top cs =? 88)) eqn:Ex.
        -- destruct cs as [|x cs]; [discriminate Ex|]. cbn [get_top advance] in *. inversion H3; subst.
           destruct (read_digits_spec hexdigit_map hexdigit cs) as (w & rest & -> & K7 & K8 & K9);
             [apply is_hexdigit_spec|reflexivity|assumption|]. rewrite K9 in H.
           destruct w as [|d w]; [discriminate|]. cbn [bind] in H. unfold finish_integer in H. cbn [fst snd] in H.
           destruct (read_suffix rest) as [[ty r]| | | |] eqn:Es; cbn [bind fst snd] in H; try discriminate.
           injection H as <- <-. apply suffix_sound in Es. destruct Es as (suf & -> & Hs1 & Hs2).
           exists (SHex x (d :: w) suf). split; [cbn; rewrite <- app_assoc; reflexivity|]. split.
           ++ cbn [token_ok]. split; [apply orb_prop in Ex; destruct Ex as [Ex|Ex]; apply Z.eqb_eq in Ex; auto|].
              split; [discriminate|]. auto.
           ++ cbn [meaning]. rewrite Hs1. rewrite create_spec by assumption. reflexivity.
        -- destruct (read_digits_spec octdigit_map octdigit (48 :: cs)) as (w & rest & Hw & H7 & H8 & H9);
             [apply is_octdigit_spec|reflexivity|assumption|]. rewrite H9 in H.
           destruct w as [|d w]; [discriminate|]. cbn [bind] in H. unfold finish_integer in H. cbn [fst snd] in H.
           destruct (read_suffix rest) as [[ty r]| | | |] eqn:Es; cbn [bind fst snd] in H; try discriminate.
           injection H as <- <-. apply suffix_sound in Es. destruct Es as (suf & -> & Hs1 & Hs2).
           cbn [app] in Hw. injection Hw as <- ->. exists (SOct w suf). cbn [forallb] in H7. apply andb_prop in H7. destruct H7 as (_ & H7).
           split; [cbn; rewrite <- app_assoc; reflexivity|]. split.
           ++ cbn [token_ok]. split; [assumption|]. split; [assumption|]. split; [|assumption].
              intros ->. cbn [app] in Ex. destruct (suf ++ r); [reflexivity|exact Ex].
           ++ cbn [meaning]. rewrite Hs1. rewrite create_spec.
              ** cbn [number]. replace (dval 48) with 0 by reflexivity. rewrite Z.mul_0_l, Z.add_0_l. reflexivity.
              ** cbn [forallb]. replace (hexdigit 48) with true by reflexivity. eapply forallb_impl; [|exact H7]. apply oct_is_hex.
      * cbn [andb] in H.
        destruct (read_digits_spec digit_map digit (c :: cs)) as (w & rest & Hw & H7 & H8 & H9);
             [apply is_digit_spec|reflexivity|assumption|]. rewrite H9 in H.
        destruct w as [|d w]; [discriminate|]. cbn [bind] in H. unfold finish_integer in H. cbn [fst snd] in H.
        destruct (read_suffix rest) as [[ty r]| | | |] eqn:Es; cbn [bind fst snd] in H; try discriminate.
        injection H as <- <-. apply suffix_sound in Es. destruct Es as (suf & -> & Hs1 & Hs2).
        cbn [app] in Hw. injection Hw as <- ->. exists (SDec c w suf). pose proof H7 as H7'.
        cbn [forallb] in H7. apply andb_prop in H7. destruct H7 as (_ & H7).
        split; [cbn; rewrite <- app_assoc; reflexivity|]. split.
        -- cbn [token_ok]. split; [assumption|]. split; [lia|]. auto.
        -- cbn [meaning]. rewrite Hs1. rewrite create_spec; [reflexivity|]. eapply forallb_impl; [|exact H7']. apply dec_is_hex.
    + destruct (c =? 39) eqn:Eq.
      * right. apply Z.eqb_eq in Eq. subst c. unfold read_character_constant in H. cbn [advance] in H.
        assert (Hel : exists e v r, (if get_top cs =? 92 then read_escape (advance cs) else if get_top cs =? 10 then Err
          else if get_top cs =? 39 then Err else Ok (get_top cs, advance cs)) = Ok (v, r) /\
          char_rest_loop fuel r = Ok cs' /\ t = TChar (new_signed IInt v) /\ cs = elem_text e ++ r /\ elem_ok 39 e r = true /\ elem_value e = v).
        { destruct cs as [|c cs]; [cbn in H; rewrite char_rest_nil in H; discriminate|]. cbn [get_top advance] in *. inversion H3; subst.
          destruct (c =? 92) eqn:Eb.
          - apply Z.eqb_eq in Eb. subst c. destruct (read_escape cs) as [[v r]| | | |] eqn:Ee; cbn [bind fst snd] in H; try discriminate.
            destruct (char_rest_loop fuel r) as [cs3| | | |] eqn:Er; cbn [bind] in H; try discriminate.
            injection H as <- <-. destruct (esc_sound 39 _ _ _ H7 Ee) as (e & G1 & G2 & G3 & G4 & _).
            exists e, v, r. split; [reflexivity|]. auto 10.
          - destruct (c =? 10) eqn:Enl; [discriminate|]. destruct (c =? 39) eqn:E39; [discriminate|]. cbn [bind fst snd] in H.
            destruct (char_rest_loop fuel cs) as [cs3| | | |] eqn:Er; cbn [bind] in H; try discriminate.
            injection H as <- <-. exists (Plain c), c, cs. cbn. rewrite Eb, Enl, E39. auto 10. }
        destruct Hel as (e & v & r & _ & Hr & -> & -> & He & Hv).
        apply Forall_app in H3. destruct H3 as (_ & H3). apply char_rest_sound in Hr; [|assumption].
        destruct Hr as (es & -> & Hes). exists (SChar e es). split; [cbn; rewrite <- !app_assoc; reflexivity|].
        split; [split; assumption|]. cbn. rewrite Hv. reflexivity.
      * destruct (c =? 34) eqn:Es.
        -- right. apply Z.eqb_eq in Es. subst c. unfold read_string_literal in H. cbn [advance] in H.
           destruct (string_loop fuel cs) as [[vs r]| | | |] eqn:Er; cbn [bind fst snd] in H; try discriminate.
           injection H as <- <-. apply string_sound in Er; [|assumption]. destruct Er as (es & -> & Hes & ->).
           exists (SStr es). split; [cbn; rewrite <- !app_assoc; reflexivity|]. split; [assumption|reflexivity].
        -- apply punct_sound in H. destruct H as [H|(s & K1 & K2 & K3)]; [left; exact H|right; exists (SPunct s); auto].
Qed.

(** punctuators do not start like other tokens *)
Definition punct_heads : bool :=
  forallb (fun p => match fst p with [] => false | c :: _ =>
     negb (nondigit c) && negb (digit c) && negb (c =? 39) && negb (c =? 34) && negb (space c) && (0 <? c) && (c <=? 127) end) punctuators.
Lemma punct_heads_ok : punct_heads = true. Proof. vm_compute. reflexivity. Qed.
Lemma punct_head c s rest : token_ok (SPunct (c :: s)) rest ->
  nondigit c = false /\ digit c = false /\ (c =? 39) = false /\ (c =? 34) = false /\ space c = false /\ 0 < c <= 127.
Proof.
  intros (_ & Hl & _). destruct (assoc punctuators (c :: s)) as [v|] eqn:E; [|destruct (Hl ltac:(discriminate)); reflexivity].
  apply assoc_in in E. pose proof punct_heads_ok as H. unfold punct_heads in H. rewrite forallb_forall in H. specialize (H _ E). cbn in H.
  repeat (apply andb_prop in H; destruct H as (H & ?)). repeat match goal with G : negb _ = true |- _ => apply negb_true_iff in G end.
  repeat (split; [assumption|]). lia.
Qed.

Lemma elems_length es : (length es <= length (elems_text es))%nat.
Proof.
  induction es as [|e es IH]; cbn; [lia|]. rewrite app_length. fold (elems_text es).
  destruct e; cbn; lia.
Qed.

Lemma nonneg_app a b : nonneg (a ++ b) -> nonneg a /\ nonneg b.
Proof. apply Forall_app. Qed.

Lemma read_token_complete fuel s rest : Forall is_char (spell s ++ rest) -> nonul (spell s ++ rest) -> nonneg (spell s ++ rest) ->
  token_ok s rest -> (length (spell s) < fuel)%nat ->
  exists t, meaning s = Some t /\ read_token fuel (spell s ++ rest) = Ok (t, rest).
Proof.
  intros Hc Hz Hn Ho Hf. unfold read_token. rewrite is_in_nondigit by (apply ischar_top; assumption). cbn [bind].
  destruct s as [c cs|x ds suf|ds suf|d ds suf|e es|es|s].
  - destruct Ho as (H1 & H2 & H3). cbn [spell app get_top]. rewrite H1. cbn [orb].
    unfold read_keyword_or_identifier. cbn [get_top advance spell app] in *. inversion Hc; subst. inversion Hz; subst.
    destruct (ident_spec (cs ++ rest)) as (w & r & -> & Heq & H8 & H9); [assumption|assumption|].
    destruct (split_unique wordchar cs rest w r) as (<- & <-); auto. cbn [bind fst snd].
    rewrite (proj2 keyword_ok).
    + cbn [bind meaning]. destruct (assoc keywords (c :: cs)); eauto.
    + change (c :: cs ++ rest) with ((c :: cs) ++ rest) in Hn. apply nonneg_app in Hn. apply Hn.
  - destruct Ho as (H1 & H2 & H3 & H4 & H5). cbn [spell app get_top] in *. change (nondigit 48) with false. change (48 =? 0) with false. cbn [orb].
    rewrite is_digit_spec by (unfold is_char; lia). change (digit 48) with true. cbn [bind].
    unfold read_integer_constant. cbn [get_top advance]. change (48 =? 48) with true.
    replace ((x =? 120) || (x =? 88)) with true by (symmetry; lia). cbn [andb].
    rewrite <- app_assoc in *. pose proof (Forall_inv_tail (Forall_inv_tail Hc)) as Hc2.
    destruct (read_digits_spec hexdigit_map hexdigit (ds ++ suf ++ rest)) as (w & r & Hw & G1 & G2 & ->);
      [apply is_hexdigit_spec|reflexivity|assumption|].
    destruct (split_unique hexdigit ds (suf ++ rest) w r) as (<- & <-); auto.
    destruct ds as [|d ds]; [congruence|]. cbn [bind]. unfold finish_integer. cbn [fst snd].
    pose proof (Forall_inv_tail (Forall_inv_tail Hn)) as Hn2. apply nonneg_app in Hn2.
    destruct (suffix_complete suf rest) as (t & Ht & ->); [apply Hn2|assumption|]. cbn [bind fst snd meaning]. rewrite Ht.
    rewrite create_spec by assumption. eauto.
  - destruct Ho as (H1 & H2 & H3 & H4). cbn [spell app get_top] in *. change (nondigit 48) with false. change (48 =? 0) with false. cbn [orb].
    rewrite is_digit_spec by (unfold is_char; lia). change (digit 48) with true. cbn [bind].
    unfold read_integer_constant. cbn [get_top advance]. change (48 =? 48) with true.
    rewrite <- app_assoc in *. cbn [andb].
    replace ((get_top (ds ++ suf ++ rest) =? 120) || (get_top (ds ++ suf ++ rest) =? 88)) with false.
    2:{ symmetry. destruct ds as [|d ds].
        - cbn [app]. specialize (H3 eq_refl). destruct (suf ++ rest); [reflexivity|exact H3].
        - cbn [app get_top]. cbn in H1. unfold octdigit in H1. lia. }
    destruct (read_digits_spec octdigit_map octdigit (48 :: ds ++ suf ++ rest)) as (w & r & Hw & G1 & G2 & ->);
      [apply is_octdigit_spec|reflexivity|assumption|].
    destruct (split_unique octdigit (48 :: ds) (suf ++ rest) w r) as (<- & <-); auto.
    cbn [bind]. unfold finish_integer. cbn [fst snd]. pose proof (Forall_inv_tail Hn) as Hn2. apply nonneg_app in Hn2.
    destruct (suffix_complete suf rest) as (t & Ht & ->); [apply Hn2|assumption|]. cbn [bind fst snd meaning]. rewrite Ht.
    rewrite create_spec.
    + cbn [number]. replace (dval 48) with 0 by reflexivity. rewrite Z.mul_0_l, Z.add_0_l. eauto.
    + cbn [forallb]. replace (hexdigit 48) with true by reflexivity. eapply forallb_impl; [|exact H1]. apply oct_is_hex.
  - destruct Ho as (H1 & H2 & H3 & H4 & H5). cbn [spell app get_top] in *.
    replace (nondigit d || (d =? 0)) with false by (unfold nondigit, lower, upper; unfold digit in H1; lia).
    inversion Hc; subst. rewrite is_digit_spec by assumption. rewrite H1. cbn [bind].
    unfold read_integer_constant. cbn [get_top advance]. replace (d =? 48) with false by lia. cbn [andb].
    rewrite <- app_assoc in *.
    assert (H1' : forallb digit (d :: ds) = true) by (cbn; rewrite H1; assumption).
    destruct (read_digits_spec digit_map digit (d :: ds ++ suf ++ rest)) as (w & r & Hw & G1 & G2 & ->);
      [apply is_digit_spec|reflexivity|assumption|].
    destruct (split_unique digit (d :: ds) (suf ++ rest) w r) as (<- & <-); auto.
    cbn [bind]. unfold finish_integer. cbn [fst snd]. pose proof (Forall_inv_tail Hn) as Hn2. apply nonneg_app in Hn2.
    destruct (suffix_complete suf rest) as (t & Ht & ->); [apply Hn2|assumption|]. cbn [bind fst snd meaning]. rewrite Ht.
    rewrite create_spec; [eauto|]. eapply forallb_impl; [|exact H1']. apply dec_is_hex.
  - destruct Ho as (H1 & H2). cbn [spell app get_top] in *. change (nondigit 39) with false. change (39 =? 0) with false. cbn [orb].
    rewrite is_digit_spec by (unfold is_char; lia). change (digit 39) with false. cbn [bind]. change (39 =? 39) with true.
    unfold read_character_constant. cbn [advance]. rewrite <- !app_assoc in *. cbn [app] in *. inversion Hc; subst.
    exists (TChar (mkil IInt (elem_value e) 0)). split; [reflexivity|].
    pose proof H4 as H4'. apply Forall_app in H4'. destruct H4' as (_ & H4').
    pose proof (elems_length es). cbn [length] in Hf. rewrite !app_length in Hf.
    pose proof (char_rest_complete es rest fuel H2 H4' ltac:(lia)) as Hr.
    destruct (is_plain e) eqn:Ep.
    + pose proof (esc_complete 39 e _ Ep H1 H4) as G. destruct (escape_cases e Ep) as (t & Et). rewrite Et in *.
      cbn [app tl get_top advance] in *. change (92 =? 92) with true. cbn iota. rewrite G. cbn [bind fst snd]. rewrite Hr. reflexivity.
    + destruct e as [c| | |]; try discriminate. cbn [elem_text app get_top advance elem_ok] in *.
      apply andb_prop in H1. destruct H1 as (H1 & Hn'). apply andb_prop in H1. destruct H1 as (Hq & Hb).
      apply negb_true_iff in Hq, Hb, Hn'. rewrite Hq, Hb, Hn'. cbn [bind fst snd]. rewrite Hr. reflexivity.
  - cbn [token_ok] in Ho. cbn [spell app get_top] in *. change (nondigit 34) with false. change (34 =? 0) with false. cbn [orb].
    rewrite is_digit_spec by (unfold is_char; lia). change (digit 34) with false. cbn [bind]. change (34 =? 39) with false. change (34 =? 34) with true.
    unfold read_string_literal. cbn [advance]. rewrite <- !app_assoc in *. cbn [app] in *. inversion Hc; subst.
    pose proof (elems_length es). cbn [length] in Hf. rewrite !app_length in Hf.
    rewrite (string_complete es rest fuel Ho H2 ltac:(lia)). cbn [bind fst snd meaning]. eauto.
  - cbn [spell] in *. destruct s as [|c s]; [destruct Ho; congruence|].
    destruct (punct_head _ _ _ Ho) as (H1 & H2 & H3 & H4 & H5 & H6). cbn [app get_top] in *.
    rewrite H1. replace (c =? 0) with false by lia. cbn [orb]. rewrite is_digit_spec by (unfold is_char; lia). rewrite H2. cbn [bind].
    rewrite H3, H4. apply (punct_complete (c :: s) rest Hn Ho).
Qed.

Lemma spell_nonempty s rest : token_ok s rest -> spell s <> [].
Proof. destruct s; cbn; try discriminate. intros (H & _). exact H. Qed.

Lemma meaning_not_eof s rest : token_ok s rest -> meaning s <> Some (TTok CtEOF).
Proof.
  assert (K : forall (tb : list (name * ctype)) s, forallb (fun p => negb (ctype_eqb (snd p) CtEOF)) tb = true -> assoc tb s <> Some CtEOF).
  { intros tb s0 H E. apply assoc_in in E. rewrite forallb_forall in H. specialize (H _ E). discriminate. }
  destruct s; cbn [meaning]; intros H E; try discriminate.
  - destruct (assoc keywords _) eqn:Ea; [|discriminate]. injection E as ->. revert Ea. apply K. vm_compute. reflexivity.
  - destruct (suffix_type suf); discriminate.
  - destruct (suffix_type suf); discriminate.
  - destruct (suffix_type suf); discriminate.
  - destruct (assoc punctuators _) eqn:Ea; [|discriminate]. injection E as ->. revert Ea. apply K. vm_compute. reflexivity.
Qed.

Lemma meaning_nospace s rest : token_ok s rest -> head_is space (spell s ++ rest) = false.
Proof.
  destruct s as [c cs|x ds suf|ds suf|d ds suf|e es|es|s]; intros H.
  - destruct H as (H & _). unfold nondigit, lower, upper in H. cbn. unfold space. lia.
  - reflexivity.
  - reflexivity.
  - destruct H as (H & _). unfold digit in H. cbn. unfold space. lia.
  - reflexivity.
  - reflexivity.
  - destruct s as [|c s]; [destruct H; congruence|]. apply punct_head in H. apply H.
Qed.

(** ** whole texts *)
Definition last_newline (cs : list Z) : Prop := cs = [] \/ exists cs0, cs = cs0 ++ [10].

Lemma text_head l rest : text_ok l rest -> head_is space rest = false -> head_is space (text_of l rest) = false.
Proof.
  destruct l as [|[s ws] t]; cbn [text_ok text_of]; intros H Hr; [assumption|]. destruct H as (H & _). apply meaning_nospace. assumption.
Qed.

Lemma tokens_loop_complete l : forall fuel, Forall is_char (text_of l []) -> nonul (text_of l []) -> nonneg (text_of l []) ->
  text_ok l [] -> (length (text_of l []) + 1 < fuel)%nat ->
  exists ts, List.map (fun p => meaning (fst p)) l = List.map Some ts /\
    tokens_loop fuel (text_of l []) = Ok (ts ++ [TTok CtEOF]).
Proof.
  induction l as [|[s ws] l IH]; intros fuel Hc Hz Hn Ho Hf; (destruct fuel as [|f]; [lia|]).
  - exists []. split; reflexivity.
  - cbn [text_of text_ok] in *. destruct Ho as (Ho & Hw & Ho'). cbn [tokens_loop].
    rewrite !app_length in Hf.
    destruct (read_token_complete f s (ws ++ text_of l [])) as (t & Ht & ->); auto; [lia|]. cbn [bind fst snd].
    apply Forall_app in Hc, Hz, Hn. destruct Hc as (_ & Hc), Hz as (_ & Hz), Hn as (_ & Hn).
    apply Forall_app in Hc, Hz, Hn. destruct Hc as (_ & Hc), Hz as (_ & Hz), Hn as (_ & Hn).
    pose proof (spell_nonempty _ _ Ho) as Hne.
    destruct (IH f) as (ts & H1 & H2); auto.
    { destruct (spell s); [congruence|]. cbn in Hf. lia. }
    exists (t :: ts). split; [cbn [List.map fst]; rewrite Ht, H1; reflexivity|].
    pose proof (meaning_not_eof _ _ Ho) as He. rewrite Ht in He.
    rewrite skip_ws by first [assumption | apply text_head; [assumption|reflexivity]]. cbn [bind]. rewrite H2.
    destruct t as [[]| | | |]; try reflexivity. congruence.
Qed.

Lemma lex_complete ws l fuel : forallb space ws = true -> Forall ascii (text_of l []) -> text_ok l [] ->
  (length (text_of l []) + 1 < fuel)%nat ->
  exists ts, List.map (fun p => meaning (fst p)) l = List.map Some ts /\
    lex fuel (ws ++ text_of l []) = Ok (ts ++ [TTok CtEOF]).
Proof.
  intros Hw Ha Ho Hf. unfold lex.
  assert (Hu : until_nul (ws ++ text_of l []) = ws ++ text_of l []).
  { assert (H : Forall (fun c => c <> 0) (ws ++ text_of l [])).
    { apply Forall_app. split.
      - rewrite forallb_forall in Hw. rewrite Forall_forall. intros c Hin. specialize (Hw c Hin). unfold space in Hw. lia.
      - eapply Forall_impl; [|exact Ha]. unfold ascii. intros; lia. }
    revert H. generalize (ws ++ text_of l []). induction l0 as [|c t IH]; intros H; [reflexivity|]. inversion H; subst. cbn.
    replace (c =? 0) with false by lia. rewrite IH by assumption. reflexivity. }
  assert (Hc : Forall is_char (text_of l [])) by (eapply Forall_impl; [|exact Ha]; unfold ascii, is_char; intros; lia).
  assert (Hz : nonul (text_of l [])) by (eapply Forall_impl; [|exact Ha]; unfold ascii; intros; cbn; lia).
  assert (Hn : nonneg (text_of l [])) by (eapply Forall_impl; [|exact Ha]; unfold ascii; intros; cbn; lia).
  rewrite Hu, skip_ws by first [assumption | apply text_head; [assumption|reflexivity]]. cbn [bind].
  apply tokens_loop_complete; assumption.
Qed.

Lemma tokens_loop_sound fuel : forall cs ts, Forall is_char cs -> nonul cs -> tokens_loop fuel cs = Ok ts ->
  exists l rest, cs = text_of l rest /\ text_ok l rest /\ get_top rest = EOF /\
    List.map (fun p => meaning (fst p)) l ++ [Some (TTok CtEOF)] = List.map Some ts.
Proof.
  induction fuel as [|f IH]; intros cs ts Hc Hz H; [discriminate|]. cbn [tokens_loop] in H.
  destruct (read_token f cs) as [[t cs']| | | |] eqn:Er; cbn [bind fst snd] in H; try discriminate.
  pose proof Er as Er'. apply read_token_sound in Er; [|assumption|assumption].
  destruct Er as [(-> & -> & He)|(s & -> & Ho & Hm)].
  - injection H as <-. exists [], cs. split; [reflexivity|]. split; [exact I|]. split; [exact He|reflexivity].
  - assert (H' : exists cs1 ts1, skip_white_spaces cs' = Ok cs1 /\ tokens_loop f cs1 = Ok ts1 /\ ts = t :: ts1).
    { pose proof (meaning_not_eof _ _ Ho) as He. rewrite Hm in He.
      assert (H1 : (do cs'0 <- skip_white_spaces cs'; do ts0 <- tokens_loop f cs'0; Ok (t :: ts0)) = Ok ts)
        by (destruct t as [[]| | | |]; try exact H; congruence).
      destruct (skip_white_spaces cs') as [cs1| | | |]; cbn [bind] in H1; try discriminate.
      destruct (tokens_loop f cs1) as [ts1| | | |] eqn:El; cbn [bind] in H1; try discriminate. injection H1 as <-. eauto. }
    clear H. destruct H' as (cs1 & ts1 & Hs & Hl & ->).
    apply Forall_app in Hc, Hz. destruct Hc as (_ & Hc), Hz as (_ & Hz).
    destruct (skip_spec cs' Hc Hz) as (ws & rest & Hs' & -> & Hw & _). rewrite Hs' in Hs. injection Hs as ->.
    apply Forall_app in Hc, Hz. destruct Hc as (_ & Hc), Hz as (_ & Hz).
    destruct (IH _ _ Hc Hz Hl) as (l & rest & -> & Hok & Hg & Hts).
    exists ((s, ws) :: l), rest. cbn [text_of text_ok List.map fst app]. rewrite Hm, Hts. auto.
Qed.

Lemma until_nul_spec cs : exists r, cs = until_nul cs ++ r /\ nonul (until_nul cs) /\ (r = [] \/ get_top r = 0).
Proof.
  induction cs as [|c t IH]; cbn; [exists []; repeat split; auto; constructor|].
  destruct (c =? 0) eqn:E.
  - apply Z.eqb_eq in E. subst c. exists (0 :: t). repeat split; auto. constructor.
  - destruct IH as (r & H1 & H2 & H3). exists r. split; [cbn; f_equal; exact H1|]. split; [constructor; [lia|assumption]|assumption].
Qed.

Lemma lex_sound fuel content ts : Forall is_char content -> lex fuel content = Ok ts ->
  exists ws l rest, until_nul content = ws ++ text_of l rest /\ forallb space ws = true /\ text_ok l rest /\
    (rest = [] \/ exists r, rest = -1 :: r) /\
    List.map (fun p => meaning (fst p)) l ++ [Some (TTok CtEOF)] = List.map Some ts.
Proof.
  intros Hc H. unfold lex in H. destruct (until_nul_spec content) as (r & Hu & Hz & _).
  assert (Hc' : Forall is_char (until_nul content)) by (rewrite Hu in Hc; apply Forall_app in Hc; apply Hc).
  destruct (skip_spec _ Hc' Hz) as (ws & cs & Hs & He & Hw & _). rewrite Hs in H. cbn [bind] in H.
  rewrite He in Hc', Hz. apply Forall_app in Hc', Hz. destruct Hc' as (_ & Hc'), Hz as (_ & Hz).
  apply tokens_loop_sound in H; [|assumption|assumption]. destruct H as (l & rest & -> & H1 & H2 & H3).
  exists ws, l, rest. repeat (split; [assumption|]). split; [|assumption].
  destruct rest as [|c rest]; [auto|]. cbn in H2. unfold EOF in H2. subst c. eauto.
Qed.

(** ** termination *)
(** [g] behaves as a loop that needs at most [n] units of fuel, or never ends *)
Definition settles {A} (g : nat -> res A) (n : nat) (r : res A) : Prop :=
  (forall f, (n <= f)%nat -> g f = r) /\ (forall f, g f = Fuel \/ g f = r).

Lemma esc_shorter cs v cs' : Forall is_char cs -> read_escape cs = Ok (v, cs') -> Forall is_char cs' /\ (length cs' < length cs)%nat.
Proof.
  intros Hc H. destruct (esc_sound 0 _ _ _ Hc H) as (e & H1 & H2 & _ & _ & H5).
  destruct (escape_cases e H1) as (t & Ht). rewrite Ht in H2, H5. cbn in H2, H5. injection H2 as ->.
  apply Forall_app in Hc. split; [apply Hc|]. rewrite app_length. destruct t; [congruence|cbn; lia].
Qed.

Lemma string_settles n : forall cs, (length cs < n)%nat -> Forall is_char cs ->
  exists r, settles (fun f => string_loop f cs) (S (length cs)) r.
Proof.
  induction n as [|n IH]; intros cs Hl Hc; [lia|]. destruct cs as [|c t].
  - exists Fuel. split; intros; rewrite string_nil; auto.
  - inversion Hc; subst. cbn [length] in Hl.
    set (b := if c =? 92 then read_escape t else if c =? 10 then Err else Ok (c, t)).
    assert (Hb : forall v cs', b = Ok (v, cs') -> Forall is_char cs' /\ (length cs' <= length t)%nat).
    { intros v cs'. unfold b. destruct (c =? 92).
      - intros H. apply esc_shorter in H; [|assumption]. split; [apply H|lia].
      - destruct (c =? 10); [discriminate|]. intros H. injection H as <- <-. auto. }
    assert (Hstep : forall f, string_loop (S f) (c :: t) = if c =? 34 then Ok ([], t) else
      do r <- b; do x <- string_loop f (snd r); Ok (wraps 8 (fst r) :: fst x, snd x)) by reflexivity.
    clearbody b. destruct (c =? 34).
    { exists (Ok ([], t)). split; intros [|f]; intros; try lia; auto. }
    destruct b as [[v cs']| | | |]; cbn [bind fst snd] in Hstep.
    + destruct (Hb v cs' eq_refl) as (K1 & K3). destruct (IH cs' ltac:(lia) K1) as (r & Hr1 & Hr2).
      exists (do x <- r; Ok (wraps 8 v :: fst x, snd x)). split.
      * intros [|f] Hf; [lia|]. rewrite Hstep. cbn [length] in Hf. rewrite Hr1 by lia. reflexivity.
      * intros [|f]; [left; reflexivity|]. rewrite Hstep. destruct (Hr2 f) as [->| ->]; auto.
    + exists Err. split; intros [|f]; intros; try lia; auto.
    + exists UB. split; intros [|f]; intros; try lia; auto.
    + exists Fatal. split; intros [|f]; intros; try lia; auto.
    + exists Fuel. split; intros [|f]; intros; try lia; auto.
Qed.

Lemma char_rest_settles n : forall cs, (length cs < n)%nat -> Forall is_char cs ->
  exists r, settles (fun f => char_rest_loop f cs) (S (length cs)) r.
Proof.
  induction n as [|n IH]; intros cs Hl Hc; [lia|]. destruct cs as [|c t].
  - exists Fuel. split; intros; rewrite char_rest_nil; auto.
  - inversion Hc; subst. cbn [length] in Hl.
    destruct (c =? 39) eqn:E39.
    { exists (Ok t). split; intros [|f]; intros; try lia; cbn [char_rest_loop get_top advance]; rewrite ?E39; auto. }
    destruct (c =? 92) eqn:E92.
    + destruct (read_escape t) as [[v cs']| | | |] eqn:Ee.
      * apply esc_shorter in Ee as H'; [|assumption]. destruct H' as (H1' & H3).
        destruct (IH cs' ltac:(lia) H1') as (r & Hr1 & Hr2). exists r. split.
        -- intros [|f] Hf; [lia|]. cbn [char_rest_loop get_top advance]. rewrite E39, E92, Ee. cbn [bind snd]. cbn [length] in Hf. apply Hr1. lia.
        -- intros [|f]; [left; reflexivity|]. cbn [char_rest_loop get_top advance]. rewrite E39, E92, Ee. apply Hr2.
      * exists Err. split; intros [|f]; intros; try lia; cbn [char_rest_loop get_top advance]; rewrite ?E39, ?E92, ?Ee; auto.
      * exists UB. split; intros [|f]; intros; try lia; cbn [char_rest_loop get_top advance]; rewrite ?E39, ?E92, ?Ee; auto.
      * exists Fatal. split; intros [|f]; intros; try lia; cbn [char_rest_loop get_top advance]; rewrite ?E39, ?E92, ?Ee; auto.
      * exists Fuel. split; intros [|f]; intros; try lia; cbn [char_rest_loop get_top advance]; rewrite ?E39, ?E92, ?Ee; auto.
    + destruct (c =? 10) eqn:E10.
      * exists Err. split; intros [|f]; intros; try lia; cbn [char_rest_loop get_top advance]; rewrite ?E39, ?E92, ?E10; auto.
      * destruct (IH t ltac:(lia) H2) as (r & Hr1 & Hr2). exists r. split.
        -- intros [|f] Hf; [lia|]. cbn [char_rest_loop get_top advance]. rewrite E39, E92, E10. cbn [length] in Hf. apply Hr1. lia.
        -- intros [|f]; [left; reflexivity|]. cbn [char_rest_loop get_top advance]. rewrite E39, E92, E10. apply Hr2.
Qed.

Lemma settles_const {A} (r : res A) n : settles (fun _ => r) n r.
Proof. split; auto. Qed.
Lemma settles_bind {A B} (g : nat -> res A) (k : A -> res B) n r : settles g n r -> settles (fun f => do x <- g f; k x) n (do x <- r; k x).
Proof.
  intros (H1 & H2). split; intros f.
  - intros Hf. rewrite H1 by assumption. reflexivity.
  - destruct (H2 f) as [->| ->]; auto.
Qed.
Lemma settles_weaken {A} (g : nat -> res A) n m r : (n <= m)%nat -> settles g n r -> settles g m r.
Proof. intros H (H1 & H2). split; [intros f Hf; apply H1; lia|exact H2]. Qed.

Lemma read_token_settles cs : Forall is_char cs -> exists r, settles (fun f => read_token f cs) (S (length cs)) r.
Proof.
  intros Hc. unfold read_token. destruct (is_in_set nondigit_set (get_top cs)) as [b| | | |]; cbn [bind]; try (eexists; apply settles_const).
  destruct b; [eexists; apply settles_const|].
  destruct (is_digit_in digit_map (get_top cs)) as [d| | | |]; cbn [bind]; try (eexists; apply settles_const).
  destruct d; [eexists; apply settles_const|].
  assert (Ha : Forall is_char (advance cs)) by (destruct Hc; cbn; [constructor|assumption]).
  assert (Hl : (length (advance cs) <= length cs)%nat) by (destruct cs; cbn; lia).
  destruct (get_top cs =? 39).
  { unfold read_character_constant.
    assert (Hl2 : (length (advance (advance cs)) <= length cs)%nat) by (destruct cs as [|? [|]]; cbn; lia).
    assert (Ha2 : Forall is_char (advance (advance cs))) by (destruct Ha; cbn; [constructor|assumption]).
    destruct (get_top (advance cs) =? 92).
    - destruct (read_escape (advance (advance cs))) as [[v r]| | | |] eqn:Ee; cbn [bind fst snd]; try (eexists; apply settles_const).
      apply esc_shorter in Ee; [|assumption]. destruct Ee as (H1 & H2).
      destruct (char_rest_settles _ r (Nat.lt_succ_diag_r _) H1) as (r' & Hr'). eexists.
      eapply settles_weaken; [|apply settles_bind; exact Hr']. lia.
    - destruct (get_top (advance cs) =? 10); [cbn [bind]; eexists; apply settles_const|].
      destruct (get_top (advance cs) =? 39); [cbn [bind]; eexists; apply settles_const|]. cbn [bind fst snd].
      destruct (char_rest_settles _ _ (Nat.lt_succ_diag_r _) Ha2) as (r' & Hr'). eexists.
      eapply settles_weaken; [|apply settles_bind; exact Hr']. lia. }
  destruct (get_top cs =? 34); [|eexists; apply settles_const].
  unfold read_string_literal. destruct (string_settles _ _ (Nat.lt_succ_diag_r _) Ha) as (r' & Hr'). eexists.
  eapply settles_weaken; [|apply settles_bind; exact Hr']. lia.
Qed.

Lemma tokens_settles n : forall cs, (length cs < n)%nat -> Forall is_char cs -> nonul cs ->
  exists r, settles (fun f => tokens_loop f cs) (length cs + 2) r.
Proof.
  induction n as [|n IH]; intros cs Hl Hc Hz; [lia|].
  destruct (read_token_settles cs Hc) as (r1 & Hr1 & Hr2).
  assert (Hk : exists g r, (forall f, tokens_loop (S f) cs = do x <- read_token f cs; g f x) /\
     forall x, r1 = Ok x -> settles (fun f => g f x) (S (length cs)) (r x)).
  { exists (fun f r => match fst r with TTok CtEOF => Ok [fst r]
      | t => do cs' <- skip_white_spaces (snd r); do ts <- tokens_loop f cs'; Ok (t :: ts) end).
    assert (Hx : forall x, r1 = Ok x -> exists rx, settles (fun f => match fst x with TTok CtEOF => Ok [fst x]
      | t => do cs' <- skip_white_spaces (snd x); do ts <- tokens_loop f cs'; Ok (t :: ts) end) (S (length cs)) rx).
    { intros [t cs'] ->. cbn [fst snd]. specialize (Hr1 _ (le_n _)). apply read_token_sound in Hr1; [|assumption|assumption].
      destruct Hr1 as [(-> & -> & _)|(s & -> & Ho & Hm)].
      - eexists. apply settles_const.
      - apply Forall_app in Hc, Hz. destruct Hc as (_ & Hc), Hz as (_ & Hz).
        destruct (skip_spec cs' Hc Hz) as (ws & rest & -> & -> & _). apply Forall_app in Hc, Hz. destruct Hc as (_ & Hc), Hz as (_ & Hz).
        pose proof (spell_nonempty _ _ Ho). rewrite !app_length in *.
        assert (length (spell s) <> 0)%nat by (destruct (spell s); cbn; congruence).
        destruct (IH rest ltac:(lia) Hc Hz) as (r & Hr). cbn [bind].
        exists (match t with TTok CtEOF => Ok [t] | _ => do ts <- r; Ok (t :: ts) end).
        destruct t as [[]| | | |]; try (eapply settles_weaken; [|apply settles_bind; exact Hr]; lia); apply settles_const. }
    destruct r1 as [x| | | |].
    - destruct (Hx x eq_refl) as (rx & Hrx). exists (fun _ => rx). split; [reflexivity|]. intros x' E. injection E as <-. exact Hrx.
    - exists (fun _ => Err). split; [reflexivity|]. discriminate.
    - exists (fun _ => Err). split; [reflexivity|]. discriminate.
    - exists (fun _ => Err). split; [reflexivity|]. discriminate.
    - exists (fun _ => Err). split; [reflexivity|]. discriminate. }
  destruct Hk as (g & r & Hg & Hs). exists (do x <- r1; r x). split.
  - intros [|f] Hf; [lia|]. rewrite Hg, Hr1 by lia. destruct r1 as [x| | | |]; cbn [bind]; auto. apply (Hs x eq_refl). lia.
  - intros [|f]; [auto|]. rewrite Hg. destruct (Hr2 f) as [->| ->]; [auto|]. destruct r1 as [x| | | |]; cbn [bind]; auto.
    apply (Hs x eq_refl).
Qed.

Lemma until_nul_length cs : (length (until_nul cs) <= length cs)%nat.
Proof. induction cs as [|c t IH]; cbn; [lia|]. destruct (c =? 0); cbn; lia. Qed.

Lemma lex_settles content : Forall is_char content -> exists r, settles (fun f => lex f content) (length content + 2) r.
Proof.
  intros Hc. unfold lex. destruct (until_nul_spec content) as (r & Hu & Hz & _).
  assert (Hc' : Forall is_char (until_nul content)) by (rewrite Hu in Hc; apply Forall_app in Hc; apply Hc).
  destruct (skip_spec _ Hc' Hz) as (ws & cs & -> & He & Hw & _). cbn [bind].
  rewrite He in Hc', Hz. apply Forall_app in Hc', Hz. destruct Hc' as (_ & Hc'), Hz as (_ & Hz).
  destruct (tokens_settles _ cs (Nat.lt_succ_diag_r _) Hc' Hz) as (r' & Hr').
  exists r'. eapply settles_weaken; [|exact Hr']. pose proof (until_nul_length content). rewrite He, app_length in H. lia.
Qed.

(** a newline stops every unterminated literal *)
Lemma read_escape_newline cs v cs' : Forall is_char cs -> In 10 cs -> read_escape cs = Ok (v, cs') -> In 10 cs'.
Proof.
  intros Hc Hin H. destruct (esc_sound 0 _ _ _ Hc H) as (e & H1 & H2 & H3 & _ & _).
  assert (Hin' : In 10 (elem_text e ++ cs')) by (rewrite <- H2; right; assumption).
  apply in_app_or in Hin'. destruct Hin' as [Hin'|]; [|assumption]. exfalso.
  destruct e as [c|c|ds|ds]; cbn [elem_text elem_ok] in *; [discriminate| | |].
  - destruct Hin' as [E|[E|[]]]; [discriminate|]. subst c. discriminate H3.
  - destruct Hin' as [E|Hin']; [discriminate|]. repeat (apply andb_prop in H3; destruct H3 as (H3 & ?)).
    rewrite forallb_forall in H3. specialize (H3 _ Hin'). discriminate.
  - destruct Hin' as [E|[E|Hin']]; [discriminate|discriminate|]. repeat (apply andb_prop in H3; destruct H3 as (H3 & ?)).
    rewrite forallb_forall in H3. specialize (H3 _ Hin'). discriminate.
Qed.

Lemma read_escape_nofuel cs : Forall is_char cs -> read_escape cs <> Fuel.
Proof.
  intros Hc. unfold read_escape.
  rewrite is_hexdigit_spec by (apply ischar_top; destruct Hc; cbn; [constructor|assumption]). cbn [bind].
  destruct ((get_top cs =? 120) && hexdigit (get_top (advance cs))) eqn:E.
  - apply andb_prop in E. destruct E as (E1 & E2). destruct cs as [|c [|d t]]; try discriminate E1; try discriminate E2. cbn [get_top advance] in *.
    inversion Hc; subst. destruct (read_hex_spec d t) as (w & r & _ & _ & _ & ->); [assumption|assumption|].
    destruct (_ <=? INT_MAX); discriminate.
  - rewrite is_octdigit_spec by (apply ischar_top; assumption). cbn [bind]. destruct (octdigit (get_top cs)) eqn:Eo.
    + destruct cs as [|c t]; [discriminate Eo|]. destruct (read_oct_spec c t) as (w & r & _ & _ & _ & _ & ->); [assumption|assumption|]. discriminate.
    + unfold read_simple_escape. repeat match goal with |- context [if ?b then _ else _] => destruct b end; discriminate.
Qed.

Lemma string_newline fuel : forall cs, Forall is_char cs -> In 10 cs -> (length cs < fuel)%nat -> string_loop fuel cs <> Fuel.
Proof.
  induction fuel as [|f IH]; intros cs Hc Hin Hf; [lia|]. destruct cs as [|c t]; [destruct Hin|]. inversion Hc; subst.
  cbn [string_loop get_top advance]. cbn [length] in Hf. destruct (c =? 34); [discriminate|]. destruct (c =? 92) eqn:E92.
  - assert (Hin' : In 10 t) by (destruct Hin; [lia|assumption]).
    destruct (read_escape t) as [[v cs']| | | |] eqn:Ee; cbn [bind fst snd]; try discriminate.
    + pose proof (esc_shorter _ _ _ H2 Ee) as (H3 & H4). pose proof (read_escape_newline _ _ _ H2 Hin' Ee).
      specialize (IH cs' H3 H ltac:(lia)). destruct (string_loop f cs'); cbn [bind]; congruence.
    + destruct (read_escape_nofuel t H2 Ee).
  - destruct (c =? 10) eqn:E10; cbn [bind fst snd]; [discriminate|].
    assert (Hin' : In 10 t) by (destruct Hin; [lia|assumption]). specialize (IH t H2 Hin' ltac:(lia)).
    destruct (string_loop f t); cbn [bind]; congruence.
Qed.

Lemma char_rest_newline fuel : forall cs, Forall is_char cs -> In 10 cs -> (length cs < fuel)%nat -> char_rest_loop fuel cs <> Fuel.
Proof.
  induction fuel as [|f IH]; intros cs Hc Hin Hf; [lia|]. destruct cs as [|c t]; [destruct Hin|]. inversion Hc; subst.
  cbn [char_rest_loop get_top advance]. cbn [length] in Hf. destruct (c =? 39); [discriminate|]. destruct (c =? 92) eqn:E92.
  - assert (Hin' : In 10 t) by (destruct Hin; [lia|assumption]).
    destruct (read_escape t) as [[v cs']| | | |] eqn:Ee; cbn [bind fst snd]; try discriminate.
    + pose proof (esc_shorter _ _ _ H2 Ee) as (H3 & H4). pose proof (read_escape_newline _ _ _ H2 Hin' Ee).
      apply IH; [assumption|assumption|lia].
    + destruct (read_escape_nofuel t H2 Ee).
  - destruct (c =? 10) eqn:E10; [discriminate|].
    assert (Hin' : In 10 t) by (destruct Hin; [lia|assumption]). apply IH; [assumption|assumption|lia].
Qed.

(** lookups never run out of fuel *)
Lemma find_loop_nofuel {K V} (keq : K -> K -> bool) fuel (cs : list (option (cell K V))) k orig : forall h d,
  (0 < d <= fuel)%nat -> ((h + d) mod length cs = orig)%nat -> (d < fuel -> True)%nat ->
  find_loop keq fuel cs k orig h <> Fuel.
Proof.
  induction fuel as [|f IH]; intros h d Hd Hm _; [lia|]. cbn [find_loop].
  unfold cell_at. destruct (nth_error cs h) as [[c|]|] eqn:E; cbn [bind]; try discriminate.
  destruct (live_key keq c k); [discriminate|].
  assert (length cs <> 0)%nat by (destruct cs; [destruct h; discriminate|cbn; lia]).
  destruct (Nat.eq_dec d 1) as [->|Hd1].
  - rewrite Hm, Nat.eqb_refl. discriminate.
  - destruct (_ =? orig)%nat; [discriminate|]. apply (IH _ (d - 1)%nat); [lia| |auto].
    rewrite Nat.add_mod_idemp_l by assumption. replace (h + 1 + (d - 1))%nat with (h + d)%nat by lia. exact Hm.
Qed.

Lemma map_get_nofuel {K V} (keq : K -> K -> bool) hash (m : map K V) k : mcap m <> 0%nat -> map_get keq hash m k <> Fuel.
Proof.
  intros H0. unfold map_get, map_find, slot. set (z := Z.rem _ _). destruct (z <? 0) eqn:Ez; cbn [bind]; [discriminate|].
  destruct (find_loop keq (mcap m) (cells m) k (Z.to_nat z) (Z.to_nat z)) as [[i|]| | | |] eqn:E; cbn [bind]; try discriminate.
  - unfold cell_at. destruct (nth_error (cells m) i) as [[c|]|]; cbn; try discriminate; destruct (cdel c); discriminate.
  - exfalso. unfold mcap in *. revert E. apply (find_loop_nofuel keq _ _ _ _ _ (length (cells m))); [lia| |auto].
    assert (z < Z.of_nat (length (cells m))) by (unfold z; pose proof (Z.rem_bound_abs (hash k) (Z.of_nat (length (cells m)))); lia).
    rewrite <- (Nat.mod_small (Z.to_nat z) (length (cells m))) at 2 by lia.
    rewrite <- Nat.add_mod_idemp_r by lia. rewrite Nat.mod_same by lia. f_equal. lia.
Qed.

Lemma longest_match_nofuel {V} (m : res (map name V)) n str : (forall s, lookup_name m s <> Fuel) -> longest_match m n str <> Fuel.
Proof.
  intros H. induction n as [|n IH]; cbn [longest_match]; [discriminate|].
  specialize (H (firstn (S n) str)). destruct (lookup_name m (firstn (S n) str)) as [[v|]| | | |]; cbn [bind]; try congruence.
Qed.

Lemma keyword_nofuel s : lookup_name keyword_map s <> Fuel.
Proof. unfold lookup_name, keyword_map. cbn [bind]. apply map_get_nofuel. vm_compute. discriminate. Qed.
Lemma punct_nofuel s : lookup_name punctuator_map s <> Fuel.
Proof. unfold lookup_name, punctuator_map. cbn [bind]. apply map_get_nofuel. vm_compute. discriminate. Qed.
Lemma suffix_nofuel s : lookup_name suffix_map s <> Fuel.
Proof. unfold lookup_name, suffix_map. cbn [bind]. apply map_get_nofuel. vm_compute. discriminate. Qed.

Lemma finish_nofuel r base : finish_integer r base <> Fuel.
Proof.
  unfold finish_integer, read_suffix. destruct (_ =? EOF); cbn; [discriminate|].
  pose proof (longest_match_nofuel suffix_map (length (take_chars 3 (snd r))) (take_chars 3 (snd r)) suffix_nofuel) as H.
  destruct (longest_match _ _ _) as [[[v k]|]| | | |]; cbn [bind]; congruence.
Qed.

Lemma read_digits_nofuel m f cs base : (forall c, is_char c -> is_digit_in m c = Ok (f c)) -> f EOF = false -> Forall is_char cs ->
  (do r <- read_digits m cs; finish_integer r base) <> Fuel.
Proof.
  intros H1 H2 H3. destruct (read_digits_spec m f cs H1 H2 H3) as (w & rest & _ & _ & _ & ->).
  destruct w; cbn [bind]; [discriminate|apply finish_nofuel].
Qed.

Lemma read_token_newline fuel cs : Forall is_char cs -> nonul cs -> (cs = [] \/ In 10 (tl cs)) -> (length cs < fuel)%nat -> read_token fuel cs <> Fuel.
Proof.
  intros Hc Hz Hnl Hf. unfold read_token. rewrite is_in_nondigit by (apply ischar_top; assumption). cbn [bind].
  destruct cs as [|c cs]; [vm_compute; discriminate|]. cbn [get_top]. inversion Hc; subst. inversion Hz; subst.
  destruct Hnl as [Hnl|Hnl]; [discriminate|]. cbn [tl] in Hnl. cbn [length] in Hf.
  destruct (nondigit c || (c =? 0)).
  { unfold read_keyword_or_identifier. cbn [get_top advance]. destruct (ident_spec cs) as (w & r & -> & _ & _ & _); [assumption|assumption|].
    cbn [bind fst snd]. pose proof (keyword_nofuel (c :: w)). destruct (lookup_name keyword_map (c :: w)) as [[v|]| | | |]; cbn [bind]; congruence. }
  rewrite is_digit_spec by assumption. cbn [bind]. destruct (digit c).
  { unfold read_integer_constant. cbn [get_top advance].
    destruct ((c =? 48) && _).
    - apply (read_digits_nofuel _ hexdigit); [apply is_hexdigit_spec|reflexivity|destruct cs; cbn; [constructor|inversion H2; assumption]].
    - destruct (c =? 48).
      + apply (read_digits_nofuel _ octdigit); [apply is_octdigit_spec|reflexivity|assumption].
      + apply (read_digits_nofuel _ digit); [apply is_digit_spec|reflexivity|assumption]. }
  destruct (c =? 39).
  { unfold read_character_constant. cbn [advance]. destruct cs as [|d cs]; [destruct Hnl|]. cbn [get_top advance] in *. inversion H2; subst. cbn [length] in Hf.
    destruct (d =? 92) eqn:E92.
    - assert (Hin : In 10 cs) by (destruct Hnl; [lia|assumption]).
      destruct (read_escape cs) as [[v r]| | | |] eqn:Ee; cbn [bind fst snd]; try discriminate; [|destruct (read_escape_nofuel cs H6 Ee)].
      pose proof (esc_shorter _ _ _ H6 Ee) as (K1 & K2). pose proof (read_escape_newline _ _ _ H6 Hin Ee) as K3.
      pose proof (char_rest_newline fuel r K1 K3 ltac:(lia)). destruct (char_rest_loop fuel r); cbn [bind]; congruence.
    - destruct (d =? 10) eqn:E10; [discriminate|]. destruct (d =? 39); [discriminate|]. cbn [bind fst snd].
      assert (Hin : In 10 cs) by (destruct Hnl; [lia|assumption]).
      pose proof (char_rest_newline fuel cs H6 Hin ltac:(lia)). destruct (char_rest_loop fuel cs); cbn [bind]; congruence. }
  destruct (c =? 34).
  { unfold read_string_literal. cbn [advance]. pose proof (string_newline fuel cs H2 Hnl ltac:(lia)).
    destruct (string_loop fuel cs); cbn [bind]; congruence. }
  unfold read_punctuator. destruct (_ =? EOF); [discriminate|].
  pose proof (longest_match_nofuel punctuator_map (length (take_chars 3 (c :: cs))) (take_chars 3 (c :: cs)) punct_nofuel) as H.
  destruct (longest_match _ _ _) as [[[v k]|]| | | |]; cbn [bind]; congruence.
Qed.

Lemma last_suffix a b : last_newline (a ++ b) -> last_newline b.
Proof.
  intros [H|(cs & H)]; [left; apply app_eq_nil in H; apply H|].
  destruct b as [|c b] using rev_ind; [left; reflexivity|]. rewrite app_assoc in H. apply app_inj_tail in H. destruct H as (_ & ->).
  right. eauto.
Qed.

Lemma tokens_newline fuel : forall cs, Forall is_char cs -> nonul cs -> head_is space cs = false -> last_newline cs -> (length cs + 1 < fuel)%nat ->
  tokens_loop fuel cs <> Fuel.
Proof.
  induction fuel as [|f IH]; intros cs Hc Hz Hh Hl Hf; [lia|]. cbn [tokens_loop].
  assert (Hnl : cs = [] \/ In 10 (tl cs)).
  { destruct Hl as [->|(cs0 & ->)]; [auto|]. right. destruct cs0 as [|d cs0]; [discriminate Hh|]. cbn. apply in_or_app. right. left. reflexivity. }
  pose proof (read_token_newline f cs Hc Hz Hnl ltac:(lia)) as Hr.
  destruct (read_token f cs) as [[t cs']| | | |] eqn:Er; cbn [bind fst snd]; try congruence.
  apply read_token_sound in Er; [|assumption|assumption]. destruct Er as [(-> & _)|(s & -> & Ho & Hm)]; [discriminate|].
  apply Forall_app in Hc, Hz. destruct Hc as (_ & Hc), Hz as (_ & Hz). apply last_suffix in Hl.
  destruct (skip_spec cs' Hc Hz) as (ws & rest & -> & -> & _ & Hh'). apply Forall_app in Hc, Hz. destruct Hc as (_ & Hc), Hz as (_ & Hz).
  apply last_suffix in Hl. cbn [bind]. rewrite !app_length in Hf.
  assert (length (spell s) <> 0)%nat by (pose proof (spell_nonempty _ _ Ho); destruct (spell s); cbn; congruence).
  specialize (IH rest Hc Hz Hh' Hl ltac:(lia)). destruct t as [[]| | | |]; try discriminate; destruct (tokens_loop f rest); cbn [bind]; congruence.
Qed.

Lemma lex_newline fuel content : Forall is_char content -> last_newline (until_nul content) -> (length content + 1 < fuel)%nat -> lex fuel content <> Fuel.
Proof.
  intros Hc Hl Hf. unfold lex. destruct (until_nul_spec content) as (r & Hu & Hz & _).
  assert (Hc' : Forall is_char (until_nul content)) by (rewrite Hu in Hc; apply Forall_app in Hc; apply Hc).
  pose proof (until_nul_length content) as Hlen.
  destruct (skip_spec _ Hc' Hz) as (ws & cs & -> & He & Hw & Hh). cbn [bind].
  rewrite He in Hc', Hz, Hl, Hlen. apply Forall_app in Hc', Hz. destruct Hc' as (_ & Hc'), Hz as (_ & Hz). apply last_suffix in Hl.
  rewrite app_length in Hlen. apply tokens_newline; auto. lia.
Qed.

(** ** undefined behaviour on 7-bit texts comes only from \x escapes beyond int *)
Definition big_hex (cs : list Z) : Prop := exists pre ds rest, cs = pre ++ 92 :: 120 :: ds ++ rest /\ forallb hexdigit ds = true /\ INT_MAX < number 16 ds.

Lemma big_hex_app a b : big_hex b -> big_hex (a ++ b).
Proof. intros (pre & ds & rest & -> & H). exists (a ++ pre), ds, rest. rewrite <- app_assoc. auto. Qed.

Definition fine {A} (r : res A) : Prop := r <> UB /\ r <> Fatal.

Lemma escape_fine cs : Forall is_char cs -> ~ big_hex (92 :: cs) -> fine (read_escape cs).
Proof.
  intros Hc Hb. unfold read_escape, fine.
  rewrite is_hexdigit_spec by (apply ischar_top; destruct Hc; cbn; [constructor|assumption]). cbn [bind].
  destruct ((get_top cs =? 120) && hexdigit (get_top (advance cs))) eqn:E.
  - apply andb_prop in E. destruct E as (E1 & E2). destruct cs as [|c [|d t]]; try discriminate E1; try discriminate E2. cbn [get_top advance] in *.
    inversion Hc; subst. destruct (read_hex_spec d t) as (w & r & -> & K1 & K2 & ->); [assumption|assumption|].
    destruct (number 16 (d :: w) <=? INT_MAX) eqn:En; [split; discriminate|]. exfalso. apply Hb. exists [], (d :: w), r.
    apply Z.eqb_eq in E1. subst c. split; [reflexivity|]. split; [cbn; rewrite E2; assumption|lia].
  - rewrite is_octdigit_spec by (apply ischar_top; assumption). cbn [bind]. destruct (octdigit (get_top cs)) eqn:Eo.
    + destruct cs as [|c t]; [discriminate Eo|]. destruct (read_oct_spec c t) as (w & r & _ & _ & _ & _ & ->); [assumption|assumption|]. split; discriminate.
    + unfold read_simple_escape. repeat match goal with |- context [if ?b then _ else _] => destruct b end; split; discriminate.
Qed.

Lemma string_fine fuel : forall cs, Forall is_char cs -> ~ big_hex cs -> fine (string_loop fuel cs).
Proof.
  induction fuel as [|f IH]; intros cs Hc Hb; [split; discriminate|]. destruct cs as [|c t]; [rewrite string_nil; split; discriminate|].
  inversion Hc; subst. cbn [string_loop get_top advance]. destruct (c =? 34); [split; discriminate|]. destruct (c =? 92) eqn:E92.
  - apply Z.eqb_eq in E92. subst c. pose proof (escape_fine t H2 Hb) as (F1 & F2).
    destruct (read_escape t) as [[v cs']| | | |] eqn:Ee; cbn [bind fst snd]; try (split; congruence).
    destruct (esc_sound 34 _ _ _ H2 Ee) as (e & _ & K2 & _). rewrite K2 in Hb.
    assert (Hb' : ~ big_hex cs') by (intros H; apply Hb; apply big_hex_app; assumption).
    destruct (esc_shorter _ _ _ H2 Ee) as (K3 & _). destruct (IH cs' K3 Hb'). destruct (string_loop f cs'); cbn [bind]; split; congruence.
  - destruct (c =? 10); cbn [bind fst snd]; [split; discriminate|].
    assert (Hb' : ~ big_hex t) by (intros H; apply Hb; apply (big_hex_app [c]); assumption).
    destruct (IH t H2 Hb'). destruct (string_loop f t); cbn [bind]; split; congruence.
Qed.

Lemma char_rest_fine fuel : forall cs, Forall is_char cs -> ~ big_hex cs -> fine (char_rest_loop fuel cs).
Proof.
  induction fuel as [|f IH]; intros cs Hc Hb; [split; discriminate|]. destruct cs as [|c t]; [rewrite char_rest_nil; split; discriminate|].
  inversion Hc; subst. cbn [char_rest_loop get_top advance]. destruct (c =? 39); [split; discriminate|]. destruct (c =? 92) eqn:E92.
  - apply Z.eqb_eq in E92. subst c. pose proof (escape_fine t H2 Hb) as (F1 & F2).
    destruct (read_escape t) as [[v cs']| | | |] eqn:Ee; cbn [bind fst snd]; try (split; congruence).
    destruct (esc_sound 39 _ _ _ H2 Ee) as (e & _ & K2 & _). rewrite K2 in Hb.
    assert (Hb' : ~ big_hex cs') by (intros H; apply Hb; apply big_hex_app; assumption).
    destruct (esc_shorter _ _ _ H2 Ee) as (K3 & _). apply IH; assumption.
  - destruct (c =? 10); [split; discriminate|].
    assert (Hb' : ~ big_hex t) by (intros H; apply Hb; apply (big_hex_app [c]); assumption). apply IH; assumption.
Qed.

Lemma finish_fine r base : nonneg (snd r) -> fine (finish_integer r base).
Proof.
  destruct r as [ds cs]. cbn [snd]. intros Hn. unfold finish_integer, read_suffix, fine. destruct (_ =? EOF); [split; discriminate|]. cbn [fst snd].
  destruct (longest_match_defined suffix_map suffixes (proj2 suffix_ok) (take_chars 3 cs) (length (take_chars 3 cs))) as (o & ->).
  - destruct (take_chars_prefix 3 cs) as (r' & Hr). unfold nonneg in Hn. rewrite Hr in Hn. apply Forall_app in Hn. apply Hn.
  - cbn [bind]. destruct o as [[v k]|]; cbn [bind]; split; discriminate.
Qed.

Lemma read_digits_fine m f cs base : (forall c, is_char c -> is_digit_in m c = Ok (f c)) -> f EOF = false -> Forall is_char cs -> nonneg cs ->
  fine (do r <- read_digits m cs; finish_integer r base).
Proof.
  intros H1 H2 H3 Hn. destruct (read_digits_spec m f cs H1 H2 H3) as (w & rest & Hw & _ & _ & ->).
  destruct w; cbn [bind]; [split; discriminate|]. apply finish_fine. rewrite Hw in Hn. apply nonneg_app in Hn. apply Hn.
Qed.

Lemma read_token_fine fuel cs : Forall is_char cs -> nonul cs -> nonneg cs -> ~ big_hex cs -> fine (read_token fuel cs).
Proof.
  intros Hc Hz Hn Hb. unfold read_token. rewrite is_in_nondigit by (apply ischar_top; assumption). cbn [bind].
  destruct cs as [|c cs]; [vm_compute; split; discriminate|]. cbn [get_top]. inversion Hc; subst. inversion Hz; subst. inversion Hn; subst.
  assert (Hb' : ~ big_hex cs) by (intros H; apply Hb; apply (big_hex_app [c]); assumption).
  destruct (nondigit c || (c =? 0)).
  { unfold read_keyword_or_identifier. cbn [get_top advance]. destruct (ident_spec cs) as (w & r & -> & -> & _ & _); [assumption|assumption|].
    cbn [bind fst snd]. rewrite (proj2 keyword_ok) by (constructor; [assumption|]; apply Forall_app in H6; apply H6).
    cbn [bind]. destruct (assoc keywords (c :: w)); split; discriminate. }
  rewrite is_digit_spec by assumption. cbn [bind]. destruct (digit c).
  { unfold read_integer_constant. cbn [get_top advance].
    destruct ((c =? 48) && _).
    - apply (read_digits_fine _ hexdigit); [apply is_hexdigit_spec|reflexivity|destruct cs; cbn; [constructor|inversion H2; assumption]|destruct cs; cbn; [constructor|inversion H6; assumption]].
    - destruct (c =? 48).
      + apply (read_digits_fine _ octdigit); [apply is_octdigit_spec|reflexivity|assumption|assumption].
      + apply (read_digits_fine _ digit); [apply is_digit_spec|reflexivity|assumption|assumption]. }
  destruct (c =? 39).
  { unfold read_character_constant. cbn [advance].
    assert (Ha : Forall is_char (advance cs)) by (destruct H2; cbn; [constructor|assumption]).
    assert (Hba : ~ big_hex (advance cs)) by (destruct cs as [|d cs]; cbn; [assumption|intros H; apply Hb'; apply (big_hex_app [d]); assumption]).
    destruct (get_top cs =? 92) eqn:E92.
    - destruct cs as [|d cs]; [discriminate E92|]. cbn [get_top advance] in *. apply Z.eqb_eq in E92. subst d.
      pose proof (escape_fine cs Ha Hb') as (F1 & F2).
      destruct (read_escape cs) as [[v r]| | | |] eqn:Ee; cbn [bind fst snd]; try (split; congruence).
      destruct (esc_sound 39 _ _ _ Ha Ee) as (e & _ & K2 & _). rewrite K2 in Hb'.
      assert (Hb2 : ~ big_hex r) by (intros H; apply Hb'; apply big_hex_app; assumption).
      destruct (esc_shorter _ _ _ Ha Ee) as (K3 & _). destruct (char_rest_fine fuel r K3 Hb2).
      destruct (char_rest_loop fuel r); cbn [bind]; split; congruence.
    - destruct (get_top cs =? 10); [split; discriminate|]. destruct (get_top cs =? 39); [split; discriminate|]. cbn [bind fst snd].
      destruct (char_rest_fine fuel (advance cs) Ha Hba). destruct (char_rest_loop fuel (advance cs)); cbn [bind]; split; congruence. }
  destruct (c =? 34).
  { unfold read_string_literal. cbn [advance]. destruct (string_fine fuel cs H2 Hb').
    destruct (string_loop fuel cs); cbn [bind]; split; congruence. }
  unfold read_punctuator. destruct (_ =? EOF); [split; discriminate|]. cbv zeta.
  destruct (longest_match_defined punctuator_map punctuators (proj2 punct_ok) (take_chars 3 (c :: cs)) (length (take_chars 3 (c :: cs)))) as (o & ->).
  - destruct (take_chars_prefix 3 (c :: cs)) as (r & Hr). unfold nonneg in Hn. rewrite Hr in Hn. apply Forall_app in Hn. apply Hn.
  - cbn [bind]. destruct o as [[v k]|]; split; discriminate.
Qed.

Lemma tokens_fine fuel : forall cs, Forall is_char cs -> nonul cs -> nonneg cs -> ~ big_hex cs -> fine (tokens_loop fuel cs).
Proof.
  induction fuel as [|f IH]; intros cs Hc Hz Hn Hb; [split; discriminate|]. cbn [tokens_loop].
  destruct (read_token_fine f cs Hc Hz Hn Hb) as (F1 & F2).
  destruct (read_token f cs) as [[t cs']| | | |] eqn:Er; cbn [bind fst snd]; try (split; congruence).
  apply read_token_sound in Er; [|assumption|assumption]. destruct Er as [(-> & _)|(s & -> & Ho & Hm)]; [split; discriminate|].
  apply Forall_app in Hc, Hz, Hn. destruct Hc as (_ & Hc), Hz as (_ & Hz), Hn as (_ & Hn).
  destruct (skip_spec cs' Hc Hz) as (ws & rest & -> & -> & _ & _). apply Forall_app in Hc, Hz, Hn. destruct Hc as (_ & Hc), Hz as (_ & Hz), Hn as (_ & Hn).
  assert (Hb' : ~ big_hex rest) by (intros H; apply Hb; apply big_hex_app; apply big_hex_app; assumption).
  cbn [bind]. destruct (IH rest Hc Hz Hn Hb'). destruct t as [[]| | | |]; try (split; discriminate); destruct (tokens_loop f rest); cbn [bind]; split; congruence.
Qed.

Lemma lex_fine fuel content : Forall (fun c => 0 <= c <= 127) content -> ~ big_hex content -> fine (lex fuel content).
Proof.
  intros Hc Hb. unfold lex. destruct (until_nul_spec content) as (r & Hu & Hz & _).
  rewrite Hu in Hc. apply Forall_app in Hc. destruct Hc as (Hc & _).
  assert (Hc1 : Forall is_char (until_nul content)) by (eapply Forall_impl; [|exact Hc]; unfold is_char; intros; lia).
  assert (Hn : nonneg (until_nul content)) by (eapply Forall_impl; [|exact Hc]; cbn; intros; lia).
  assert (Hb' : ~ big_hex (until_nul content)).
  { intros (pre & ds & rest & E & K). apply Hb. exists pre, ds, (rest ++ r). split; [|assumption].
    rewrite Hu, E, <- app_assoc. cbn. rewrite <- app_assoc. reflexivity. }
  destruct (skip_spec _ Hc1 Hz) as (ws & cs & -> & He & Hw & Hh). cbn [bind].
  rewrite He in Hc1, Hz, Hn, Hb'. apply Forall_app in Hc1, Hz, Hn. apply tokens_fine; [apply Hc1|apply Hz|apply Hn|].
  intros H; apply Hb'; apply big_hex_app; assumption.
Qed.
