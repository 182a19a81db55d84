(** Separated tokens, integer constants, display of string literals. *)
From Verif Require Import Base MapModel SetModel MapSpec MapProofs MapProofs2 SetProofs LiteralModel LexerModel LexSpec LexProofs LexProofs2 LexProofs3.
Local Open Scope Z_scope.

(** ** a token followed by white space *)
Definition table_nospace {V} (t : list (name * V)) : bool :=
  forallb (fun p => forallb (fun c => negb (space c)) (fst p) && negb (name_eqb (fst p) [])) t.

Lemma prefix_before_space k suf sp rest r : forallb (fun c => negb (space c)) k = true -> space sp = true ->
  suf ++ sp :: rest = k ++ r -> (length k <= length suf)%nat.
Proof.
  intros Hk Hs. revert k Hk. induction suf as [|c suf IH]; intros [|d k] Hk H; cbn in *; try lia.
  - injection H as <- H. rewrite Hs in Hk. discriminate.
  - injection H as <- H. apply andb_prop in Hk. destruct Hk as (_ & Hk). specialize (IH k Hk H). lia.
Qed.

Lemma entry_before_space {V} (t : list (name * V)) p sp rest : table_nospace t = true -> space sp = true ->
  (p <> [] -> assoc t p <> None) -> longest_entry t p (p ++ sp :: rest).
Proof.
  intros Ht Hs Hp. split; [assumption|]. split; [eauto|]. intros k v r Hin H.
  unfold table_nospace in Ht. rewrite forallb_forall in Ht. specialize (Ht _ Hin). cbn in Ht. apply andb_prop in Ht. destruct Ht as (Ht & _).
  eapply prefix_before_space; eauto.
Qed.

Lemma suffix_nospace : table_nospace suffixes = true. Proof. vm_compute. reflexivity. Qed.
Lemma punct_nospace : table_nospace punctuators = true. Proof. vm_compute. reflexivity. Qed.

Lemma suffix_head suf sp rest f : suffix_type suf <> None -> space sp = true ->
  f 108 = false -> f 76 = false -> f 117 = false -> f 85 = false -> (forall c, space c = true -> f c = false) ->
  head_is f (suf ++ sp :: rest) = false.
Proof.
  intros Hs Hsp H1 H2 H3 H4 H5. destruct suf as [|c suf]; [cbn; auto|]. cbn [suffix_type] in Hs. cbn [app head_is].
  destruct (assoc suffixes (c :: suf)) eqn:E; [|congruence]. apply assoc_in in E.
  assert (K : forallb (fun p => match fst p with [] => false | c :: _ => existsb (Z.eqb c) [108; 76; 117; 85] end) suffixes = true)
    by (vm_compute; reflexivity).
  rewrite forallb_forall in K. specialize (K _ E). cbn [fst] in K. apply existsb_exists in K. destruct K as (x & Hin & Hx).
  apply Z.eqb_eq in Hx. subst x. destruct Hin as [<-|[<-|[<-|[<-|[]]]]]; assumption.
Qed.

Lemma elems_ok_follow q es r1 r2 : elems_ok q es (q :: r1) = elems_ok q es (q :: r2).
Proof.
  induction es as [|e es IH]; cbn [elems_ok]; [reflexivity|]. rewrite IH. f_equal.
  assert (H : forall f, head_is f (elems_text es ++ q :: r1) = head_is f (elems_text es ++ q :: r2))
    by (intros f; destruct (elems_text es); reflexivity).
  destruct e; cbn; rewrite ?H; reflexivity.
Qed.
Lemma elem_ok_follow q e es r1 r2 : elem_ok q e (elems_text es ++ q :: r1) = elem_ok q e (elems_text es ++ q :: r2).
Proof.
  assert (H : forall f, head_is f (elems_text es ++ q :: r1) = head_is f (elems_text es ++ q :: r2))
    by (intros f; destruct (elems_text es); reflexivity).
  destruct e; cbn; rewrite ?H; reflexivity.
Qed.

Lemma suffix_entry suf sp rest : suffix_type suf <> None -> space sp = true -> longest_entry suffixes suf (suf ++ sp :: rest).
Proof.
  intros Hs Hsp. apply entry_before_space; [apply suffix_nospace|assumption|]. destruct suf; [congruence|]. intros _. exact Hs.
Qed.

Lemma space_classes c : space c = true -> hexdigit c = false /\ octdigit c = false /\ digit c = false /\ (nondigit c || digit c) = false.
Proof. unfold space, hexdigit, octdigit, digit, nondigit, lower, upper. lia. Qed.

Lemma well_spelled_ok s sp rest : well_spelled s -> space sp = true -> token_ok s (sp :: rest).
Proof.
  intros Hw Hs. destruct s as [c cs|x ds suf|ds suf|d ds suf|e es|es|s]; cbn [well_spelled token_ok] in *.
  - destruct Hw as (H1 & H2). repeat (split; [assumption|]). cbn [head_is]. apply space_classes. assumption.
  - destruct Hw as (H1 & H2 & H3 & H4). repeat (split; [assumption|]).
    split; [apply suffix_head; auto; intros c Hc; apply space_classes in Hc; tauto|apply suffix_entry; assumption].
  - destruct Hw as (H1 & H2). split; [assumption|].
    split; [apply suffix_head; auto; intros c Hc; apply space_classes in Hc; tauto|].
    split; [intros _; apply suffix_head; auto; intros c Hc; unfold space in Hc; lia|apply suffix_entry; assumption].
  - destruct Hw as (H1 & H2 & H3 & H4). repeat (split; [assumption|]).
    split; [apply suffix_head; auto; intros c Hc; apply space_classes in Hc; tauto|apply suffix_entry; assumption].
  - destruct Hw as (H1 & H2). split; [rewrite (elem_ok_follow 39 e es _ []); exact H1|rewrite (elems_ok_follow 39 es _ []); exact H2].
  - rewrite (elems_ok_follow 34 es _ []); exact Hw.
  - split.
    + intros ->. apply Hw. vm_compute. reflexivity.
    + apply entry_before_space; [apply punct_nospace|assumption|]. intros _. assumption.
Qed.

Lemma separated_ok l : Forall (fun p => well_spelled (fst p) /\ snd p <> [] /\ forallb space (snd p) = true) l -> text_ok l [].
Proof.
  induction l as [|[s ws] l IH]; intros H; cbn [text_ok]; [exact I|]. inversion H; subst. destruct H2 as (H1 & H2 & H4). cbn [fst snd] in *.
  destruct ws as [|sp ws]; [congruence|]. split; [|split; [assumption|auto]]. cbn [app]. apply well_spelled_ok; [assumption|].
  cbn in H4. apply andb_prop in H4. apply H4.
Qed.

Lemma text_of_ascii l : Forall (fun p => Forall ascii (spell (fst p)) /\ forallb space (snd p) = true) l -> Forall ascii (text_of l []).
Proof.
  induction l as [|[s ws] l IH]; intros H; cbn [text_of]; [constructor|]. inversion H; subst. destruct H2 as (H1 & H2). cbn [fst snd] in *.
  apply Forall_app. split; [assumption|]. apply Forall_app. split; [|auto].
  rewrite forallb_forall in H2. rewrite Forall_forall. intros c Hc. specialize (H2 c Hc). unfold space in H2. unfold ascii. lia.
Qed.

Lemma lex_separated ws0 l fuel : forallb space ws0 = true ->
  Forall (fun p => well_spelled (fst p) /\ Forall ascii (spell (fst p)) /\ snd p <> [] /\ forallb space (snd p) = true) l ->
  (length (text_of l []) + 1 < fuel)%nat ->
  exists ts, List.map (fun p => meaning (fst p)) l = List.map Some ts /\ lex fuel (ws0 ++ text_of l []) = Ok (ts ++ [TTok CtEOF]).
Proof.
  intros Hw H Hf. apply lex_complete; auto.
  - apply text_of_ascii. eapply Forall_impl; [|exact H]. cbn. tauto.
  - apply separated_ok. eapply Forall_impl; [|exact H]. cbn. tauto.
Qed.


Lemma lex_one s t fuel : well_spelled s -> Forall ascii (spell s) -> meaning s = Some t -> (length (spell s) + 2 < fuel)%nat ->
  lex fuel (spell s ++ [10]) = Ok [t; TTok CtEOF].
Proof.
  intros Hw Ha Hm Hf. destruct (lex_separated [] [(s, [10])] fuel) as (ts & H1 & H2).
  - reflexivity.
  - repeat constructor; auto. discriminate.
  - cbn. rewrite app_length. cbn. lia.
  - cbn [List.map fst] in H1. rewrite Hm in H1. destruct ts as [|t' [|]]; try discriminate. injection H1 as <-.
    cbn [text_of app] in H2. exact H2.
Qed.

Lemma suffix_ascii suf : suffix_type suf <> None -> Forall ascii suf.
Proof.
  destruct suf as [|c suf]; [constructor|]. cbn [suffix_type]. destruct (assoc suffixes (c :: suf)) eqn:E; [|congruence]. intros _.
  apply assoc_in in E. assert (K : forallb (fun p => forallb (fun c => (0 <? c) && (c <=? 127)) (fst p)) suffixes = true) by (vm_compute; reflexivity).
  rewrite forallb_forall in K. specialize (K _ E). cbn [fst] in K. rewrite forallb_forall in K. rewrite Forall_forall.
  intros x Hx. specialize (K x Hx). unfold ascii. lia.
Qed.
Lemma class_ascii f ds : (forall c, f c = true -> ascii c) -> forallb f ds = true -> Forall ascii ds.
Proof. intros H K. rewrite forallb_forall in K. rewrite Forall_forall. auto. Qed.

(** value and type of an integer constant *)
Lemma hex_ascii c : hexdigit c = true -> ascii c. Proof. unfold hexdigit, digit, ascii. lia. Qed.
Lemma int_lex s ty v fuel :
  match s with
  | SHex _ ds suf => well_spelled s /\ suffix_type suf = Some ty /\ v = number 16 ds
  | SOct ds suf => well_spelled s /\ suffix_type suf = Some ty /\ v = number 8 ds
  | SDec d ds suf => well_spelled s /\ suffix_type suf = Some ty /\ v = number 10 (d :: ds)
  | _ => False
  end -> (length (spell s) + 2 < fuel)%nat ->
  lex fuel (spell s ++ [10]) = Ok [int_token ty v; TTok CtEOF].
Proof.
  intros H Hf.
  assert (Hs : well_spelled s /\ Forall ascii (spell s) /\ meaning s = Some (int_token ty v)).
  { destruct s as [|x ds suf|ds suf|d ds suf| | |]; try contradiction; destruct H as (H & Ht & ->); split; auto; cbn [spell meaning]; rewrite Ht; split; auto;
      assert (Hsuf : Forall ascii suf) by (apply suffix_ascii; congruence); cbn in H.
    - destruct H as (Hx & _ & Hd & _). constructor; [unfold ascii; lia|]. constructor; [unfold ascii; lia|]. apply Forall_app. split; [|assumption].
      eapply class_ascii; [apply hex_ascii|exact Hd].
    - destruct H as (Hd & _). constructor; [unfold ascii; lia|]. apply Forall_app. split; [|assumption].
      eapply class_ascii; [|exact Hd]. intros c Hc. apply hex_ascii, oct_is_hex, Hc.
    - destruct H as (Hd & _ & Hd' & _). constructor; [apply hex_ascii, dec_is_hex, Hd|]. apply Forall_app. split; [|assumption].
      eapply class_ascii; [|exact Hd']. intros c Hc. apply hex_ascii, dec_is_hex, Hc. }
  destruct Hs as (H1 & H2 & H3). apply lex_one; assumption.
Qed.

(** ** display of string literals *)
Definition celem (c : Z) : elem :=
  match fst (display_char c) with
  | [x] => Plain x
  | [_; y] => Simple y
  | _ :: ds => Oct ds
  | [] => Plain c
  end.

Definition seven : list Z := List.map Z.of_nat (seq 0 128).
Lemma check_seven (f : Z -> bool) : forallb f seven = true -> forall c, 0 <= c <= 127 -> f c = true.
Proof.
  intros H c Hc. rewrite forallb_forall in H. apply H. unfold seven. apply in_map_iff. exists (Z.to_nat c). split; [lia|]. apply in_seq. lia.
Qed.
Definition display_ok (c : Z) : bool :=
  let '(txt, adv) := display_char c in
  name_eqb txt (elem_text (celem c)) && (elem_value (celem c) =? c) && (adv =? length txt)%nat && (length txt <=? 4)%nat &&
  (1 <=? length txt)%nat && forallb (fun c => (32 <=? c) && (c <=? 126)) txt &&
  match celem c with
  | Plain x => negb (x =? 34) && negb (x =? 92) && negb (x =? 10)
  | Simple y => existsb (fun p => fst p =? y) simple_escapes
  | Oct ds => forallb octdigit ds && (length ds =? 3)%nat
  | Hex _ => false
  end.
Lemma display_seven c : 0 <= c <= 127 -> display_ok c = true.
Proof. apply check_seven. vm_compute. reflexivity. Qed.

Lemma display_facts c : 0 <= c <= 127 ->
  display_char c = (elem_text (celem c), length (elem_text (celem c))) /\ elem_value (celem c) = c /\
  (1 <= length (elem_text (celem c)) <= 4)%nat /\ Forall ascii (elem_text (celem c)) /\ (forall rest, elem_ok 34 (celem c) rest = true).
Proof.
  intros H. apply display_seven in H. unfold display_ok in H. destruct (display_char c) as [txt adv] eqn:E.
  repeat (apply andb_prop in H; destruct H as (H & ?)). apply name_eqb_spec in H. subst txt.
  split; [f_equal; apply Nat.eqb_eq in H4; congruence|]. split; [lia|]. split; [lia|]. split.
  - rewrite forallb_forall in H1. rewrite Forall_forall. intros x Hx. specialize (H1 x Hx). unfold ascii. lia.
  - intros rest. destruct (celem c) as [x|y|ds|ds]; cbn [elem_ok]; auto; [|discriminate].
    apply andb_prop in H0. destruct H0 as (Ha & Hb). rewrite Ha, Hb. apply Nat.eqb_eq in Hb. rewrite Hb. rewrite orb_true_r. reflexivity.
Qed.

Lemma display_loop_seven s : forall buf cap, Forall (fun c => 0 <= c <= 127) s -> (length buf + 4 * length s + 2 <= cap)%nat ->
  display_loop cap s buf (length buf) = Ok (buf ++ elems_text (List.map celem s) ++ [34]).
Proof.
  induction s as [|c s IH]; intros buf cap Hs Hc; cbn [display_loop length] in *.
  - replace (cap <? length buf + 2)%nat with false by (symmetry; apply Nat.ltb_ge; lia). rewrite Nat.eqb_refl. reflexivity.
  - inversion Hs; subst. destruct (display_facts c H1) as (-> & _ & H3 & _ & _).
    replace (cap <? _)%nat with false by (symmetry; apply Nat.ltb_ge; lia). rewrite firstn_all, <- app_length.
    rewrite IH by (assumption || (rewrite app_length; lia)). cbn [List.map]. unfold elems_text. cbn [flat_map].
    rewrite <- !app_assoc. reflexivity.
Qed.

Lemma display_spec s : Forall (fun c => 0 <= c <= 127) s -> sliteral_display s = Ok (spell (SStr (List.map celem s))).
Proof.
  intros H. unfold sliteral_display. change 1%nat with (length [34]). rewrite display_loop_seven by (assumption || (cbn; lia)). reflexivity.
Qed.

Lemma celems_ok s rest : Forall (fun c => 0 <= c <= 127) s -> elems_ok 34 (List.map celem s) rest = true.
Proof.
  induction 1; cbn [List.map elems_ok]; [reflexivity|]. destruct (display_facts x H) as (_ & _ & _ & _ & ->). assumption.
Qed.
Lemma celems_value s : Forall (fun c => 0 <= c <= 127) s -> List.map (fun e => wraps 8 (elem_value e)) (List.map celem s) = s.
Proof.
  induction 1; cbn [List.map]; [reflexivity|]. rewrite IHForall. destruct (display_facts x H) as (_ & -> & _). f_equal.
  unfold wraps. change (2 ^ 8) with 256. change (2 ^ (8 - 1)) with 128. rewrite Z.mod_small by lia. replace (x <? 128) with true by lia. reflexivity.
Qed.
Lemma celems_ascii s : Forall (fun c => 0 <= c <= 127) s -> Forall ascii (elems_text (List.map celem s)).
Proof.
  induction 1; cbn [List.map]; [constructor|]. unfold elems_text. cbn [flat_map]. apply Forall_app. split; [|assumption].
  apply (display_facts x H).
Qed.

Lemma display_lex s : Forall (fun c => 0 <= c <= 127) s -> exists txt, sliteral_display s = Ok txt /\
  forall fuel, (length txt + 2 < fuel)%nat -> lex fuel (txt ++ [10]) = Ok [TStr (s ++ [0]); TTok CtEOF].
Proof.
  intros H. exists (spell (SStr (List.map celem s))). split; [apply display_spec; assumption|]. intros fuel Hf. apply lex_one; auto.
  - cbn. apply celems_ok. assumption.
  - cbn [spell]. constructor; [unfold ascii; lia|]. apply Forall_app. split; [apply celems_ascii; assumption|constructor; [unfold ascii; lia|constructor]].
  - cbn [meaning]. rewrite celems_value by assumption. reflexivity.
Qed.

(** one displayed character, read by the assembler *)
Definition gas_ok (c : Z) : bool :=
  match celem c with
  | Plain x => negb (x =? 34) && negb (x =? 92) && (wraps 8 x =? c)
  | Simple y => negb (octdigit y) && (wraps 8 (gas_escape y) =? c)
  | Oct [a; b; d] => octdigit a && octdigit b && octdigit d && (wraps 8 (number 8 [a; b; d]) =? c)
  | _ => false
  end.
Lemma gas_seven c : 0 <= c <= 127 -> c <> 7 -> c <> 11 -> gas_ok c = true.
Proof.
  intros H H1 H2. assert (K : (fun c => (c =? 7) || (c =? 11) || gas_ok c) c = true) by (apply (check_seven (fun c => (c =? 7) || (c =? 11) || gas_ok c)); [vm_compute; reflexivity|assumption]).
  cbv beta in K.
  replace (c =? 7) with false in K by lia. replace (c =? 11) with false in K by lia. exact K.
Qed.

Lemma gas_plain c t : (c =? 34) = false -> (c =? 92) = false ->
  gas_ascii (c :: t) = match gas_ascii t with Some l => Some (wraps 8 c :: l) | None => None end.
Proof.
  intros H1 H2. cbn [gas_ascii]. destruct c as [|p|p]; try reflexivity.
  do 8 (try destruct p as [p|p|]; try reflexivity; try discriminate).
Qed.

Lemma display_gas s : Forall (fun c => 0 <= c <= 127 /\ c <> 7 /\ c <> 11) s ->
  exists txt, sliteral_display s = Ok (34 :: txt) /\ gas_ascii txt = Some s.
Proof.
  intros H. exists (elems_text (List.map celem s) ++ [34]). split.
  - rewrite display_spec; [reflexivity|]. eapply Forall_impl; [|exact H]. cbn. tauto.
  - induction H as [|c s (H1 & H2 & H3) _ IH]; [reflexivity|]. cbn [List.map]. unfold elems_text. cbn [flat_map]. rewrite <- app_assoc.
    fold (elems_text (List.map celem s)). pose proof (gas_seven c H1 H2 H3) as G. unfold gas_ok in G.
    set (rest := elems_text (List.map celem s) ++ [34]) in *. clearbody rest.
    destruct (celem c) as [x|y|ds|ds]; cbn [elem_text app].
    + apply andb_prop in G. destruct G as (G & G3). apply andb_prop in G. destruct G as (G1 & G2). apply negb_true_iff in G1, G2.
      rewrite gas_plain, IH by assumption. apply Z.eqb_eq in G3. rewrite G3. reflexivity.
    + apply andb_prop in G. destruct G as (G1 & G2). apply negb_true_iff in G1. cbn [gas_ascii]. rewrite G1, IH. apply Z.eqb_eq in G2. rewrite G2. reflexivity.
    + destruct ds as [|a [|b [|d [|]]]]; try discriminate.
      destruct (octdigit a) eqn:Ea; [|discriminate]. destruct (octdigit b) eqn:Eb; [|discriminate]. destruct (octdigit d) eqn:Ed; [|discriminate].
      cbn [andb] in G. apply Z.eqb_eq in G. cbn [app gas_ascii]. rewrite Ea, Eb, Ed, IH, G. reflexivity.
    + discriminate.
Qed.
