(** Proofs for C44: each instruction moves the liveness marks by one *)
From Verif Require Import Base ImmcModel RegallocModel X64Model X64genModel ElabProofs RegSpec RegProofs RegProofs4 MarkProofs.
Local Open Scope Z_scope.

Definition moves (st : xst) (r : xres) : Prop := forall cs st', r = Ok (cs, st') -> liveseqs_next (x_lives st) = Ok (x_lives st').
Lemma finish_moves cs st0 st : x_lives st0 = x_lives st -> moves st (finish cs st0).
Proof. intros E ds st' H. unfold finish in H. apply bind_ok in H as (l & Hl & H). injection H as _ <-. rewrite E in Hl. exact Hl. Qed.
Lemma bind_moves {A} st (a : res A) f : (forall x, moves st (f x)) -> moves st (bind a f).
Proof. intros F cs st' H. apply bind_ok in H as (x & _ & H). exact (F x _ _ H). Qed.
Lemma no_moves st (r : xres) : (forall x, r <> Ok x) -> moves st r.
Proof. intros N cs st' H. destruct (N _ H). Qed.
Ltac moves := cbv beta zeta; try solve [apply no_moves; discriminate];
  lazymatch goal with
  | |- moves _ (bind _ _) => apply bind_moves; intros ?; moves
  | |- moves _ (finish _ _) => apply finish_moves; repeat match goal with |- context [if ?b then _ else _] => destruct b end; reflexivity
  | |- moves _ (match ?x with _ => _ end) => destruct x; moves
  | |- _ => idtac
  end.
Lemma inst_moves c st : moves st (gen_inst_x64code c st).
Proof.
  destruct c as [t d f s | | |]; try (apply no_moves; discriminate). unfold gen_inst_x64code.
  destruct t; unfold gen_load, gen_addr, gen_str, gen_store, gen_ldarg, gen_starg, gen_stret, gen_binary, gen_divisional, gen_unary, gen_shrot, gen_setcmp, by_sign, gen_jmp, gen_jcmp, gen_call, gen_enter, gen_leave, gen_prep, gen_clean; moves.
Qed.
Lemma label_moves c st : moves st (gen_label_x64code c st).
Proof. destruct c; unfold gen_label_x64code; moves. Qed.
Lemma data_moves c st : moves st (gen_data_x64code c st).
Proof. destruct c as [| t i | t i |]; unfold gen_data_x64code; moves. Qed.

(** * The state in which each instruction is generated *)
Section Lives.
Variable lives : list liveseq.
Hypothesis Steady : steady lives.
Notation positioned := (positioned lives).
(** the instructions of [l], of which the first has number [i], generate parts of [X] in states with the marks at their numbers *)
Definition generated (l : list immc) (i : Z) (X : list x64) : Prop :=
  forall p t d f s, nth_error l p = Some (IMMC_INST t d f s) -> exists X1 cs X2 st st', X = X1 ++ cs ++ X2 /\ gen_inst_x64code (IMMC_INST t d f s) st = Ok (cs, st') /\ positioned (i + Z.of_nat p) (x_lives st).
Lemma generated_app l l' i X X' : generated l i X -> generated l' (i + Z.of_nat (length l)) X' -> generated (l ++ l') i (X ++ X').
Proof.
  intros G G' p t d f s E. destruct (Nat.lt_ge_cases p (length l)) as [L | L].
  - rewrite nth_error_app1 in E by exact L. destruct (G _ _ _ _ _ E) as (X1 & cs & X2 & st & st' & -> & H). exists X1, cs, (X2 ++ X'), st, st'. split; [now rewrite <- !app_assoc | exact H].
  - rewrite nth_error_app2 in E by exact L. destruct (G' _ _ _ _ _ E) as (X1 & cs & X2 & st & st' & -> & H1 & H2). exists (X ++ X1), cs, X2, st, st'. split; [now rewrite <- app_assoc |]. split; [exact H1 |].
    replace (i + Z.of_nat (length l) + Z.of_nat (p - length l)) with (i + Z.of_nat p) in H2 by lia. exact H2.
Qed.
Lemma generated_more l i X A B : generated l i X -> generated l i (A ++ X ++ B).
Proof. intros G p t d f s E. destruct (G _ _ _ _ _ E) as (X1 & cs & X2 & st & st' & -> & H). exists (A ++ X1), cs, (X2 ++ B), st, st'. split; [now rewrite <- !app_assoc | exact H]. Qed.
Lemma generated_inst c i st cs st' : gen_inst_x64code c st = Ok (cs, st') -> positioned i (x_lives st) -> generated [c] i cs.
Proof.
  intros H P p t d f s E. destruct p as [| p]; [| destruct p; discriminate E]. injection E as ->. exists [], cs, [], st, st'. split; [now rewrite app_nil_r |]. split; [exact H |]. now rewrite Z.add_0_r.
Qed.
Lemma generated_other c i cs : (forall t d f s, c <> IMMC_INST t d f s) -> generated [c] i cs.
Proof. intros N p t d f s E. destruct p as [| p]; [injection E as ->; destruct (N t d f s eq_refl) | destruct p; discriminate E]. Qed.
Lemma next_at st r cs st' i : moves st r -> r = Ok (cs, st') -> positioned i (x_lives st) -> positioned (i + 1) (x_lives st').
Proof. intros M H P. exact (positioned_next _ _ _ _ Steady P (M _ _ H)). Qed.
Lemma body_generated : forall l st cs r st' i, gen_body_x64code l st = Ok (cs, r, st') -> positioned i (x_lives st) ->
  exists l1, l = l1 ++ r /\ generated l1 i cs /\ positioned (i + Z.of_nat (length l1)) (x_lives st').
Proof.
  induction l as [| c l IH]; intros st cs r st' i H P; [discriminate H |]. cbn [gen_body_x64code] in H.
  assert (St : (cs, r, st') = ([], c :: l, st) \/ exists c1 st1 c2, (gen_inst_x64code c st = Ok (c1, st1) \/ (exists t v n, c = IMMC_LABEL t v n) /\ gen_label_x64code c st = Ok (c1, st1)) /\ gen_body_x64code l st1 = Ok (c2, r, st') /\ cs = c1 ++ c2).
  { destruct c as [t d f s | | | t v n]; try discriminate H.
    - assert (K : t = IMMC_INST_LEAVE \/ t <> IMMC_INST_LEAVE) by (destruct t; ((left; reflexivity) || (right; discriminate))). destruct K as [-> | K]; [left; congruence | right].
      assert (H' : (do (cs, st) <- gen_inst_x64code (IMMC_INST t d f s) st; do (ds, r, st) <- gen_body_x64code l st; Ok (cs ++ ds, r, st)) = Ok (cs, r, st')) by (destruct t; solve [exact H | congruence]).
      clear H. apply bind_ok in H' as ([c1 st1] & H1 & H). apply bind_ok in H as ([[c2 r2] st2] & H2 & H). injection H as <- <- <-. exists c1, st1, c2. auto.
    - right. apply bind_ok in H as ([c1 st1] & H1 & H). apply bind_ok in H as ([[c2 r2] st2] & H2 & H). injection H as <- <- <-. exists c1, st1, c2. split; [right; eauto | auto]. }
  destruct St as [E | (c1 & st1 & c2 & H1 & H2 & ->)].
  - injection E as -> -> ->. exists []. split; [reflexivity |]. split; [intros p t d f s E; destruct p; discriminate E | now rewrite Z.add_0_r].
  - assert (G1 : generated [c] i c1 /\ positioned (i + 1) (x_lives st1)).
    { destruct H1 as [H1 | [(t & v & n & ->) H1]]; (split; [| eapply next_at; [| exact H1 | exact P]]); [eapply generated_inst; eassumption | apply inst_moves | apply generated_other; discriminate | apply label_moves]. }
    destruct G1 as [G1 P1]. destruct (IH _ _ _ _ _ H2 P1) as (l1 & -> & G2 & P2). exists (c :: l1). split; [reflexivity |]. split; [exact (generated_app [c] l1 i c1 c2 G1 G2) |].
    cbn [length]. replace (i + Z.of_nat (S (length l1))) with (i + 1 + Z.of_nat (length l1)) by lia. exact P2.
Qed.
Lemma function_generated l st cs r st' i : gen_function_x64code l st = Ok (cs, r, st') -> positioned i (x_lives st) ->
  exists l1, l = l1 ++ r /\ generated l1 i cs /\ positioned (i + Z.of_nat (length l1)) (x_lives st').
Proof.
  intros H P. unfold gen_function_x64code in H. destruct l as [| lb [| en l]]; try discriminate H. apply bind_ok in H as ([c0 st0] & H0 & H). apply bind_ok in H as ([c1 st1] & H1 & H). apply bind_ok in H as ([[c2 r2] st2] & H2 & H).
  destruct r2 as [| lv r2]; [discriminate H |]. apply bind_ok in H as (regs & _ & H). cbv zeta in H. apply bind_ok in H as ([c3 st3] & H3 & H).
  remember (List.map (fun r0 => X64_INST X64_INST_PUSHX (Some (X64_OPERAND_REG X64_SUFFIX_QUAD r0)) None) regs) as pu. remember (List.map (fun r0 => X64_INST X64_INST_POPX None (Some (X64_OPERAND_REG X64_SUFFIX_QUAD r0))) (rev regs)) as po.
  injection H as E1 E2 E3. subst r st'. cbn [x_lives].
  assert (P0 : positioned (i + 1) (x_lives st0)) by (eapply next_at; [apply label_moves | exact H0 | exact P]). assert (P1 : positioned (i + 1 + 1) (x_lives st1)) by (eapply next_at; [apply inst_moves | exact H1 | exact P0]).
  destruct (body_generated _ _ _ _ _ _ H2 P1) as (l1 & -> & G2 & P2). assert (P3 := next_at _ _ _ _ _ (inst_moves _ _) H3 P2).
  exists ([lb] ++ [en] ++ l1 ++ [lv]). split; [cbn [app]; rewrite <- app_assoc; reflexivity |]. split.
  - rewrite <- E1. apply generated_app; [apply generated_other; intros t d f s ->; discriminate H0 |]. apply generated_app; [| apply generated_app].
    + rewrite <- (app_nil_l (c1 ++ _)). apply generated_more. eapply generated_inst; [exact H1 |]. cbn. exact P0.
    + cbn [length]. replace (i + Z.of_nat 1 + Z.of_nat 1) with (i + 1 + 1) by lia. exact G2.
    + rewrite app_assoc. rewrite <- (app_nil_r ((_ ++ po) ++ c3)), <- app_assoc. apply generated_more. eapply generated_inst; [exact H3 |]. cbn [length]. replace (i + Z.of_nat 1 + Z.of_nat 1 + Z.of_nat (length l1)) with (i + 1 + 1 + Z.of_nat (length l1)) by lia. exact P2.
  - rewrite !app_length. cbn [length]. replace (i + Z.of_nat (1 + (1 + (length l1 + 1)))) with (i + 1 + 1 + Z.of_nat (length l1) + 1) by lia. exact P3.
Qed.
Lemma datas_generated : forall l st cs r st' i, gen_datas_x64code l st = Ok (cs, r, st') -> positioned i (x_lives st) ->
  exists l1, l = l1 ++ r /\ generated l1 i cs /\ positioned (i + Z.of_nat (length l1)) (x_lives st').
Proof.
  induction l as [| c l IH]; intros st cs r st' i H P; cbn [gen_datas_x64code] in H.
  - injection H as <- <- <-. exists []. split; [reflexivity |]. split; [intros p t d f s E; destruct p; discriminate E | now rewrite Z.add_0_r].
  - destruct (is_external_label c); [injection H as <- <- <-; exists []; split; [reflexivity |]; split; [intros p t d f s E; destruct p; discriminate E | now rewrite Z.add_0_r] |].
    destruct c as [| t x | t x |]; try discriminate H; apply bind_ok in H as ([c1 st1] & H1 & H); apply bind_ok in H as ([[c2 r2] st2] & H2 & H); injection H as <- <- <-;
      (destruct (IH _ _ _ _ _ H2 (next_at _ _ _ _ _ (data_moves _ _) H1 P)) as (l1 & -> & G2 & P2); eexists (_ :: l1); split; [reflexivity |]; split;
       [refine (generated_app [_] l1 i c1 c2 _ G2); apply generated_other; discriminate | cbn [length]; replace (i + Z.of_nat (S (length l1))) with (i + 1 + Z.of_nat (length l1)) by lia; exact P2]).
Qed.
Lemma externals_generated : forall fuel l st X i, gen_externals_x64code fuel l st = Ok X -> positioned i (x_lives st) -> generated l i X.
Proof.
  induction fuel as [| fuel IH]; intros l st X i H P; [discriminate H |]. cbn [gen_externals_x64code] in H. destruct l as [| c l]; [intros p t d f s E; destruct p; discriminate E |]. destruct c as [| | | t v n]; try discriminate H.
  apply bind_ok in H as ([[cs r] st1] & H1 & H). apply bind_ok in H as (ds & H2 & H). injection H as <-.
  assert (G : exists l1, IMMC_LABEL t v n :: l = l1 ++ r /\ generated l1 i cs /\ positioned (i + Z.of_nat (length l1)) (x_lives st1)).
  { destruct t; [eapply function_generated; eassumption | | discriminate H1]. unfold gen_variable_x64code in H1. apply bind_ok in H1 as ([c0 st0] & H0 & H1). apply bind_ok in H1 as ([[c2 r2] st2] & H3 & H1). injection H1 as <- <- <-.
    destruct (datas_generated _ _ _ _ _ _ H3 (next_at _ _ _ _ _ (label_moves _ _) H0 P)) as (l1 & -> & G2 & P2). exists (IMMC_LABEL IMMC_LABEL_VARIABLE v n :: l1). split; [reflexivity |]. split.
    - refine (generated_app [_] l1 i c0 c2 _ G2). apply generated_other. discriminate.
    - cbn [length]. replace (i + Z.of_nat (S (length l1))) with (i + 1 + Z.of_nat (length l1)) by lia. exact P2. }
  destruct G as (l1 & -> & G1 & P1). apply generated_app; [exact G1 | exact (IH _ _ _ _ H2 P1)].
Qed.
End Lives.
Lemma x64gen_generated l lives X : steady lives -> (forall k s, nth_error lives k = Some s -> ls_index s = 0 /\ ls_pos s = -1) -> x64gen l lives = Ok X -> generated lives l 0 X.
Proof. intros S N H. eapply externals_generated; [exact S | exact H |]. apply positioned_start; assumption. Qed.
