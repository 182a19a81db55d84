(** The check of orderly code is right *)
From Verif Require Import Base AstModel SrtModel ResolverModel ImmcModel ImmcgenModel ImmcSem ImmcProgram CSem CProgram GenSpec ProgSpec LabelSpec LabelProofs3 ProgProofs2 RegallocModel ElabProofs RegSpec RegProofs3 RegProofs4 RegProofs6 RegCheck.
Open Scope Z_scope.

Lemma memb_In r l : memb r l = true <-> In r l.
Proof. unfold memb. rewrite existsb_exists. split; [intros (x & I & E); assert (r = x) by lia; congruence | intros I; exists r; split; [exact I | lia]]. Qed.
Lemma subset_In a b : subset a b = true <-> forall r, In r a -> In r b.
Proof. unfold subset. rewrite forallb_forall. split; intros H r I; [apply memb_In, H, I | apply memb_In, H, I]. Qed.
Lemma merge_In r a b : In r (merge a b) <-> In r a \/ In r b.
Proof.
  unfold merge. rewrite in_app_iff, filter_In. split; [tauto |]. intros [H | H]; [tauto |]. destruct (memb r a) eqn:E; [left; now apply memb_In | right; split; [exact H | reflexivity]].
Qed.
Lemma without_In r w l : In r (without w l) <-> In r l /\ w <> Some r.
Proof.
  destruct w as [s |]; cbn [without]; [| split; [intros H; split; [exact H | discriminate] | tauto]]. rewrite filter_In. destruct (r =? s) eqn:E; cbn.
  - assert (r = s) by lia. subst. split; [intros [_ N]; discriminate N | intros [_ N]; congruence].
  - split; [intros [H _]; split; [exact H | intros X; injection X as X; lia] | tauto].
Qed.
Section Sound.
Context (fn : list immc).
Lemma pass_length old : forall l, length (pass fn old l) = length l.
Proof. induction l as [| c l IH]; cbn; [reflexivity | now rewrite IH]. Qed.
Lemma hd_nth (l : list (list Z)) : hd [] l = nth 0 l [].
Proof. destruct l; reflexivity. Qed.
Lemma pass_under old : (forall p r, In r (nth p old []) -> live fn p r) -> forall l k, skipn k fn = l -> forall p r, In r (nth p (pass fn old l) []) -> live fn (k + p) r.
Proof.
  intros U. induction l as [| c l IH]; intros k E p r I; [destruct p; destruct I |]. assert (Ec : nth_error fn k = Some c) by (rewrite <- (Nat.add_0_r k), <- nth_skipn, E; reflexivity).
  assert (E' : skipn (S k) fn = l). { assert (X := skipn_nth _ _ _ Ec). rewrite E in X. congruence. }
  cbn [pass] in I. destruct p as [| p]; cbn [nth] in I; [| replace (k + S p)%nat with (S k + p)%nat by lia; exact (IH _ E' _ _ I)].
  rewrite Nat.add_0_r. apply merge_In in I as [I | I]; [exact (live_read _ _ _ _ Ec I) |]. apply without_In in I as [I W]. apply merge_In in I as [I | I].
  - destruct (goes_on c) eqn:G; [| destruct I]. rewrite hd_nth in I. assert (L := IH _ E' _ _ I). rewrite Nat.add_0_r in L. eapply live_later; [exact Ec | exact W | exists c; split; [exact Ec |]; left; split; [exact G | reflexivity] | exact L].
  - unfold at_target in I. destruct (goes_to c) as [n |] eqn:G; [| destruct I]. destruct (label_at n fn) as [q |] eqn:La; [| destruct I]. eapply live_later; [exact Ec | exact W | exists c; split; [exact Ec |]; right; exists n; split; [exact G | exact La] | exact (U _ _ I)].
Qed.
Lemma passes_under : forall k old, (forall p r, In r (nth p old []) -> live fn p r) -> forall p r, In r (nth p (passes k fn old) []) -> live fn p r.
Proof. induction k as [| k IH]; intros old U p r I; [exact (U _ _ I) |]. cbn [passes] in I. exact (IH _ (fun p r X => pass_under _ U fn 0%nat eq_refl p r X) _ _ I). Qed.
Lemma pass_at old : forall l p c, nth_error l p = Some c ->
  nth p (pass fn old l) [] = merge (reads c) (without (writes c) (merge (if goes_on c then nth (S p) (pass fn old l) [] else []) (at_target fn old c))).
Proof.
  induction l as [| x l IH]; intros p c E; [destruct p; discriminate E |]. destruct p as [| p].
  - injection E as ->. cbn [pass nth]. now rewrite hd_nth.
  - cbn [nth_error] in E. cbn [pass]. change (nth (S p) (?a :: ?b) []) with (nth p b []). rewrite (IH _ _ E). reflexivity.
Qed.
Lemma pass_over a : (forall p, subset (nth p (pass fn a fn) []) (nth p a []) = true) -> forall p r, live fn p r -> In r (nth p (pass fn a fn) []).
Proof.
  intros Sb p r L. induction L as [p c r E R | p q c r E W F L IH].
  - rewrite (pass_at a _ _ _ E). apply merge_In. now left.
  - rewrite (pass_at a _ _ _ E). apply merge_In. right. apply without_In. split; [| exact W]. apply merge_In. destruct F as (c' & E' & F). assert (c' = c) by congruence. subst c'. destruct F as [[G ->] | (n & G & La)].
    + left. now rewrite G.
    + right. unfold at_target. rewrite G, La. exact (proj1 (subset_In _ _) (Sb q) _ IH).
Qed.
Lemma combine_subset : forall b a, length b = length a -> forallb (fun p => subset (fst p) (snd p)) (combine b a) = true -> forall p, subset (nth p b []) (nth p a []) = true.
Proof.
  induction b as [| x b IH]; intros a L H p; destruct a as [| y a]; try discriminate L; [destruct p; reflexivity |]. cbn in H. apply andb_prop in H as [H1 H2]. destruct p as [| p]; [exact H1 |]. cbn. apply IH; [cbn in L; lia | exact H2].
Qed.
Lemma passes_length : forall k old, length old = length fn -> length (passes k fn old) = length fn.
Proof. induction k as [| k IH]; intros old L; [exact L |]. cbn. apply IH, pass_length. Qed.
Lemma live_sets_ok s : live_sets fn = Some s -> length s = length fn /\ forall p r, In r (nth p s []) <-> live fn p r.
Proof.
  unfold live_sets. cbv zeta. set (a := passes 2 fn (repeat [] (length fn))). destruct (forallb _ _) eqn:F; [| discriminate]. intros E. injection E as <-. split; [apply pass_length |].
  assert (Ua : forall p r, In r (nth p a []) -> live fn p r). { apply passes_under. intros p r I. exfalso. destruct (nth_in_or_default p (repeat (@nil Z) (length fn)) []) as [X | X]; [apply repeat_spec in X; rewrite X in I; destruct I | rewrite X in I; destruct I]. }
  intros p r. split; [intros I; exact (pass_under _ Ua fn 0%nat eq_refl p r I) |]. apply pass_over, combine_subset; [| exact F]. rewrite pass_length. symmetry. apply passes_length, repeat_length.
Qed.
Lemma check_code_ok all : forall l sets p written, check_code fn all sets l p written = true -> forall k c, nth_error l k = Some c -> exists s,
  nth_error sets k = Some s /\ (forall r, In r s -> In r written \/ exists q c', (q < k)%nat /\ nth_error l q = Some c' /\ writes c' = Some r) /\
  (forall x, writes c = Some x -> (forall r, In r (nth (S k) sets []) -> r = x) \/ In x (nth (S k) sets []) \/ ((forall w, In w written -> w < x) /\ forall q c' t, (q < k)%nat -> nth_error l q = Some c' -> writes c' = Some t -> t < x)) /\
  (forall n, goes_to c = Some n -> exists q, label_at n fn = Some q /\ ((p + k < q)%nat \/ nth_error all q = Some [])).
Proof.
  induction l as [| c l IH]; intros sets p written H k c0 E; [destruct k; discriminate E |]. destruct sets as [| s t]; [discriminate H |]. cbn [check_code] in H. apply andb_prop in H as [H H4]. apply andb_prop in H as [H H3]. apply andb_prop in H as [H1 H2].
  destruct k as [| k].
  - injection E as <-. exists s. split; [reflexivity |]. split; [intros r I; left; exact (proj1 (subset_In _ _) H1 r I) |]. split.
    + intros x X. rewrite X in H2. change (nth 1 (s :: t) []) with (nth 0 t []). rewrite <- hd_nth. apply orb_prop in H2 as [H2 | H2]; [apply orb_prop in H2 as [H2 | H2] |].
      * left. intros r I. assert (J := proj1 (subset_In _ _) H2 r I). destruct J as [J | []]. congruence.
      * right. left. now apply memb_In.
      * right. right. split; [intros w I; assert (X2 := proj1 (forallb_forall _ _) H2 w I); cbn in X2; lia | intros q c' u Q; lia].
    + intros n G. rewrite G in H3. destruct (label_at n fn) as [q |]; [| discriminate H3]. exists q. split; [reflexivity |]. rewrite Nat.add_0_r. apply orb_prop in H3 as [H3 | H3]; [left; apply Nat.ltb_lt, H3 | right]. destruct (nth_error all q) as [[|] |]; [reflexivity | discriminate H3..].
  - destruct (IH _ _ _ H4 k c0 E) as (s0 & A1 & A2 & A3 & A4). exists s0. split; [exact A1 |]. split; [| split].
    + intros r I. destruct (A2 _ I) as [W | (q & c' & Q & Ec & W)]; [| right; exists (S q), c'; split; [lia | auto]]. destruct (writes c) as [x |] eqn:Wc; [| now left]. destruct W as [<- | W]; [| now left]. right. exists 0%nat, c. split; [lia | auto].
    + intros x X. change (nth (S (S k)) (s :: t) []) with (nth (S k) t []). destruct (A3 x X) as [B | [B | [B1 B2]]]; [now left | right; now left | right; right]. split.
      * intros w W. apply B1. destruct (writes c); [now right | exact W].
      * intros q c' u Q Ec W. destruct q as [| q]; [injection Ec as ->; apply B1; rewrite W; now left | eapply B2; [| exact Ec | exact W]; lia].
    + intros n G. destruct (A4 n G) as (q & Q1 & Q2). exists q. split; [exact Q1 |]. replace (p + S k)%nat with (S p + k)%nat by lia. exact Q2.
Qed.
Theorem check_function_ok : check_function fn = true -> orderly fn.
Proof.
  unfold check_function, check_orderly. destruct (live_sets fn) as [s |] eqn:Ls; [| discriminate]. intros H. apply andb_prop in H as [H1 H2]. destruct (live_sets_ok _ Ls) as [Ln Lv]. assert (Ck := check_code_ok s fn s 0 [] H1).
  assert (Nth : forall p x, nth_error s p = Some x -> nth p s [] = x) by (intros p x X; now apply nth_error_nth). split.
  - intros c E. rewrite E in H2. destruct (goes_on c); [discriminate H2 | reflexivity].
  - intros c n I G. apply In_nth_error in I as (k & E). destruct (Ck k c E) as (_ & _ & _ & _ & A). destruct (A n G) as (q & Q & _). congruence.
  - intros p r L. assert (I := proj2 (Lv p r) L). assert (exists c, nth_error fn p = Some c) as (c & E) by (inversion L; eauto). destruct (Ck p c E) as (x & X & A & _). rewrite (Nth _ _ X) in I. destruct (A r I) as [[] | (q & c' & Q & Ec & W)]. exists q, c'. auto.
  - intros p c x r E W L N. destruct (Ck p c E) as (_ & _ & _ & A & _). destruct (A x W) as [B | [B | [_ B]]]; [exfalso; apply N, B, Lv, L | left; apply Lv, B | right; exact B].
  - right. intros p c n q r E G La Le L. destruct (Ck p c E) as (_ & _ & _ & _ & A). destruct (A n G) as (q' & Q & [B | B]); assert (q' = q) by congruence; subst q'; [lia |]. apply Lv in L. rewrite (Nth _ _ B) in L. destruct L.
Qed.
End Sound.
Lemma split_functions_ok : forall f C fn, function_in C fn -> (length C <= f)%nat -> (match C with c :: _ => external c = true | [] => True end) -> In fn (split_functions f C).
Proof.
  induction f as [| f IH]; intros C fn (A & B & EC & (v & n & body & Ef & Fb) & Hb) L X; subst fn C.
  - rewrite !app_length in L. cbn in L. lia.
  - destruct A as [| a A]; cbn [app] in *; cbn [split_functions].
    + destruct (span_external (body ++ B)) as [x rest] eqn:Sp. destruct (span_ok _ _ _ Sp) as (E & Fx & Hr). destruct (span_unique _ _ _ _ E Fb Fx Hb Hr) as [-> ->]. now left.
    + destruct (span_external (A ++ IMMC_LABEL IMMC_LABEL_FUNCTION v n :: body ++ B)) as [x rest] eqn:Sp. destruct (span_ok _ _ _ Sp) as (E & Fx & Hr). destruct (after_span _ _ _ _ _ E Fx eq_refl) as (A2 & -> & ER).
      assert (I : In (IMMC_LABEL IMMC_LABEL_FUNCTION v n :: body) (split_functions f rest)).
      { apply IH.
        - exists A2, B. split; [exact ER |]. split; [exists v, n, body; auto | exact Hb].
        - rewrite ER. cbn in L. rewrite !app_length in *. lia.
        - destruct rest as [| y rest]; [exact Logic.I | exact (Hr _ _ eq_refl)]. }
      destruct a as [| | | t w m]; try exact I. destruct t; try exact I. now right.
Qed.
Theorem check_program_ok C : check_program C = true -> orderly_program C.
Proof.
  intros H fn F. apply check_function_ok. unfold check_program in H. apply andb_prop in H as [X H]. apply (proj1 (forallb_forall _ _) H), split_functions_ok; [exact F | apply le_n |]. destruct C; [exact I | exact X].
Qed.
(** from the source program to the allocated code *)
Theorem program_allocated a s C exts ext n C' sq fuel r :
  resolve a = Ok s -> plain_names s -> immcgen s = Ok C -> regular_program s = true -> check_program C = true -> allocate_regs n C = Ok (C', sq) ->
  run_program exts ext fuel s = Ok r -> exists k0, forall k, (k0 <= k)%nat -> irun_program exts ext C' k fuel = Ok r.
Proof.
  intros Rs Pl G Rg Ck A R. destruct (program_does _ _ _ _ _ _ _ Rs Pl G Rg R) as (k0 & H). exists k0. intros k L. eapply allocation_preserves; [exact A | exact (proj1 (program_labels _ _ _ Rs Pl G)) | exact (check_program_ok _ Ck) | exact (H k L)].
Qed.
