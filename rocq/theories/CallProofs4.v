(** Proofs for C34, C44, C45: the functions of the generated assembly code *)
From Verif Require Import Base ElabProofs ElabProofs2 DtypeModel ImmcModel RegallocModel X64Model X64genModel LabelSpec LabelProofs RegSpec RegProofs6 CallSpec CallProofs CallProofs2 CallProofs3.
Local Open Scope Z_scope.
#[local] Arguments moves : simpl never.

(** code for a list of instructions and labels *)
Record chunks (A : list xreg) (l : list immc) (cs : list x64) : Prop := {
  cs_grown : xgrown cs = grown l;
  cs_labels : forall d, xlabels d cs = dlabels d l;
  cs_jumps : forall d, xjumps d cs = djumps d l;
  cs_calls : forall d, xcalls d cs = dcalls d l;
  cs_sane : Forall sane cs;
  cs_stays : Forall (fun c => xret c = false /\ x64_external c = false) cs;
  cs_uses : forall x r, In x cs -> In r (touched x) -> r = SP_REG_ID \/ In r A }.
Lemma chunks_nil A : chunks A [] [].
Proof. constructor; try reflexivity; [constructor | constructor |]. intros x r []. Qed.
Lemma chunks_cons A B c l cs ds : chunk A c cs -> incl A B -> chunks B l ds -> chunks B (c :: l) (cs ++ ds).
Proof.
  intros [A1 A2 A3 A4 A5 A6 A7 _] I [B1 B2 B3 B4 B5 B6 B7]. constructor.
  - rewrite xgrown_app, grown_cons. lia.
  - intros d. rewrite xlabels_app, A2, B2, A1. cbn. now rewrite app_nil_r.
  - intros d. rewrite xjumps_app, A3, B3, A1. cbn. now rewrite app_nil_r.
  - intros d. rewrite xcalls_app, A4, B4, A1. cbn. now rewrite app_nil_r.
  - apply Forall_app; auto.
  - apply Forall_app; auto.
  - intros x r J R. apply in_app_iff in J as [J | J]; [destruct (A7 _ _ J R); auto | eauto].
Qed.
Lemma label_chunk A t v n st cs st' : external (IMMC_LABEL t v n) = false -> gen_label_x64code (IMMC_LABEL t v n) st = Ok (cs, st') -> chunk A (IMMC_LABEL t v n) cs /\ x_evac st' = x_evac st.
Proof.
  intros E H. cbn [gen_label_x64code] in H. apply finish_ok in H as [-> X]. split; [| exact X]. destruct t; try discriminate E. constructor; try reflexivity; [constructor; [cbn; auto | constructor] | constructor; [cbn; auto | constructor] | | repeat constructor]. intros x r [<- | []] [].
Qed.
Lemma body_chunks sz rest : forall l st cs r st', Forall ordinary l -> Forall (fun c => external c = false) l -> 0 <= x_evac st ->
  gen_body_x64code (l ++ IMMC_INST IMMC_INST_LEAVE None sz None :: rest) st = Ok (cs, r, st') ->
  r = IMMC_INST IMMC_INST_LEAVE None sz None :: rest /\ chunks (allowed (x_evac st')) l cs /\ x_evac st <= x_evac st'.
Proof.
  induction l as [| c l IH]; intros st cs r st' O X P H; cbn [app gen_body_x64code] in H.
  - injection H as <- <- <-. splits; [reflexivity | apply chunks_nil | lia].
  - apply Forall_cons_iff in O as [O O']. apply Forall_cons_iff in X as [X X'].
    assert (G : exists c1 st1 ds, chunk (allowed (x_evac st1)) c c1 /\ x_evac st <= x_evac st1 /\ gen_body_x64code (l ++ IMMC_INST IMMC_INST_LEAVE None sz None :: rest) st1 = Ok (ds, r, st') /\ cs = c1 ++ ds).
    { destruct c as [t d f g | | | t v n]; try discriminate H.
      - assert (H' : (do (cs, st0) <- gen_inst_x64code (IMMC_INST t d f g) st; do (ds, r, st0) <- gen_body_x64code (l ++ IMMC_INST IMMC_INST_LEAVE None sz None :: rest) st0; Ok (cs ++ ds, r, st0)) = Ok (cs, r, st')) by (destruct t; try exact H; destruct O).
        clear H. apply bind_ok in H' as ([c1 st1] & H1 & H'). apply bind_ok in H' as ([[ds r1] st2] & H2 & H'). injection H' as <- <- <-. apply inst_chunk in H1 as [K1 K2]; [| exact O | exact P]. exists c1, st1, ds. auto.
      - apply bind_ok in H as ([c1 st1] & H1 & H). apply bind_ok in H as ([[ds r1] st2] & H2 & H). injection H as <- <- <-. apply (label_chunk (allowed (x_evac st1))) in H1 as [K1 K2]; [| exact X]. exists c1, st1, ds. splits; auto. lia. }
    destruct G as (c1 & st1 & ds & K1 & K2 & H2 & ->). apply IH in H2 as (R & K3 & K4); [| assumption | assumption | lia]. splits; [exact R | | lia]. eapply chunks_cons; [exact K1 | now apply allowed_mono | exact K3].
Qed.
Lemma saved_regs_ok : forall n i rs, 0 <= i -> saved_regs n i = Ok rs -> rs = firstn n (skipn (Z.to_nat i) CALLEE_SAVED_REG_IDS) /\ length rs = n.
Proof.
  induction n as [| n IH]; intros i rs P H; cbn [saved_regs] in H; [injection H as <-; auto |]. apply bind_ok in H as (r & R & H). apply bind_ok in H as (t & T & H). injection H as <-. apply IH in T as [T1 T2]; [| lia].
  unfold CALLEE, reg_at, deref in R. destruct (i <? 0) eqn:B; [lia |]. destruct (nth_error CALLEE_SAVED_REG_IDS (Z.to_nat i)) eqn:E; [| discriminate]. injection R as ->.
  assert (K : skipn (Z.to_nat i) CALLEE_SAVED_REG_IDS = r :: skipn (Z.to_nat (i + 1)) CALLEE_SAVED_REG_IDS).
  { replace (Z.to_nat (i + 1)) with (S (Z.to_nat i)) by lia. revert E. generalize CALLEE_SAVED_REG_IDS, (Z.to_nat i). clear. intros l k. revert l. induction k as [| k IH]; intros [| x l] E; try discriminate E; [injection E as ->; reflexivity |]. cbn in E |- *. now apply IH. }
  rewrite K. cbn. split; [now f_equal | lia].
Qed.
(** a function of the program and its frame *)
Definition framed (k : bool) (F : list x64) : Prop :=
  exists size saved body l, function_code F size saved body /\ size mod 16 = 0 /\ saved = firstn (length saved) CALLEE_SAVED_REG_IDS
    /\ chunks (AX_REG_ID :: CALLER_SAVED_REG_IDS ++ saved) l body /\ lv k (fun _ => False) 0 0 l 0.
Definition names_of (X : list x64) : list name := flat_map xlabel X.
Lemma xlabels_names d cs : List.map fst (xlabels d cs) = names_of cs.
Proof. revert d. induction cs as [| c cs IH]; intros d; [reflexivity |]. cbn. now rewrite map_app, IH, map_map, map_id. Qed.
Lemma names_app a b : names_of (a ++ b) = names_of a ++ names_of b.
Proof. apply flat_map_app. Qed.
Lemma odd_nat m : Z.odd (Z.of_nat m) = Nat.odd m.
Proof. induction m as [| m IH]; [reflexivity |]. rewrite Nat2Z.inj_succ, Z.odd_succ, Nat.odd_succ, <- Z.negb_odd, <- Nat.negb_odd. now rewrite IH. Qed.
Lemma function_frame k fn rest st cs r st' : immc_function k fn -> gen_function_x64code (fn ++ rest) st = Ok (cs, r, st') ->
  r = rest /\ framed k cs /\ names_of cs = labels fn /\ exists n v body, cs = X64_LABEL X64_LABEL_FUNCTION v n :: body /\ Forall (fun c => x64_external c = false) body.
Proof.
  intros (v & n & s & i & body & -> & LV & EX) H. cbn [app] in H. rewrite <- app_assoc in H. unfold gen_function_x64code in H. cbn [app] in H.
  apply bind_ok in H as ([lab st1] & H1 & H). apply bind_ok in H as ([head st2] & H2 & H). apply bind_ok in H as ([[b r1] st3] & H3 & H).
  cbn [gen_label_x64code] in H1. apply finish_ok in H1 as [-> E1]. cbn [x_evac] in E1.
  cbn [gen_inst_x64code] in H2. unfold gen_enter in H2. cbn [deref bind] in H2. apply bind_ok in H2 as (cnt & C1 & H2). apply bind_ok in H2 as (size & SZ & H2). apply finish_ok in H2 as [-> E2].
  apply body_chunks in H3 as (-> & K & LE); [| apply LV | exact EX | lia]. apply bind_ok in H as (regs & RG & H). cbv zeta in H. apply bind_ok in H as ([tail st4] & H4 & H). injection H as <- <- <-.
  cbn [gen_inst_x64code] in H4. unfold gen_leave in H4. cbn [deref bind] in H4. rewrite C1 in H4. cbn [bind] in H4. rewrite SZ in H4. cbn [bind] in H4. apply finish_ok in H4 as [-> E4].
  apply saved_regs_ok in RG as [R1 R2]; [| lia]. cbn [Z.to_nat skipn] in R1. split; [reflexivity |].
  assert (OD : (Z.rem (x_evac st3) 2 =? 1) = Nat.odd (length regs)).
  { rewrite R2. rewrite Z.rem_mod_nonneg, Zmod_odd by lia. replace (x_evac st3) with (Z.of_nat (Z.to_nat (x_evac st3))) at 1 by lia. rewrite odd_nat. now destruct (Nat.odd (Z.to_nat (x_evac st3))). }
  rewrite OD.
  match goal with |- framed k ?c /\ _ => set (cs := c) end.
  assert (FC : cs = X64_LABEL X64_LABEL_FUNCTION match v with IMMC_VIS_GLOBAL => X64_VIS_GLOBAL | IMMC_VIS_LOCAL => X64_VIS_LOCAL | IMMC_VIS_NONE => X64_VIS_NONE end n :: prologue size regs ++ b ++ epilogue size regs).
  { subst cs. unfold prologue, epilogue. rewrite <- !app_assoc. cbn [app]. repeat f_equal. }
  split; [| split].
  - exists size, regs, b, body. splits.
    + eexists _, n. exact FC.
    + unfold min_multiple_of in SZ. cbn in SZ. injection SZ as <-. apply Z_mod_mult.
    + now rewrite R2.
    + rewrite R1. exact K.
    + exact LV.
  - rewrite FC. unfold names_of. cbn [flat_map xlabel]. fold names_of. rewrite !flat_map_app.
    assert (Z1 : flat_map xlabel (prologue size regs) = []). { unfold prologue. rewrite !flat_map_app. assert (Z0 : flat_map xlabel (map (fun r => X64_INST X64_INST_PUSHX (quad r) None) regs) = []) by (clear; induction regs; auto). rewrite Z0. destruct (size >? 0), (Nat.odd (length regs)); reflexivity. }
    assert (Z2 : flat_map xlabel (epilogue size regs) = []). { unfold epilogue. rewrite !flat_map_app. assert (Z0 : flat_map xlabel (map (fun r => X64_INST X64_INST_POPX None (quad r)) (rev regs)) = []) by (generalize (rev regs); intros l; induction l; auto). rewrite Z0. destruct (size >? 0), (Nat.odd (length regs)); reflexivity. }
    rewrite Z1, Z2, app_nil_r. cbn [app]. change (flat_map xlabel b) with (names_of b). rewrite <- (xlabels_names 0), (cs_labels _ _ _ K), dlabels_names. unfold labels. cbn [flat_map label_of app]. rewrite flat_map_app. cbn. now rewrite app_nil_r.
  - eexists n, _, _. split; [exact FC |]. apply Forall_app. split; [| apply Forall_app; split].
    + unfold prologue. apply Forall_forall. intros x I. rewrite !in_app_iff in I. destruct I as [I | [I | [I | I]]]; [cbn in I; destruct I as [<- | [<- | []]]; reflexivity | destruct (size >? 0); [destruct I as [<- | []]; reflexivity | destruct I] | apply in_map_iff in I as (q & <- & _); reflexivity | destruct (Nat.odd _); [destruct I as [<- | []]; reflexivity | destruct I]].
    + eapply Forall_impl; [| exact (cs_stays _ _ _ K)]. intros x [_ Q]. exact Q.
    + unfold epilogue. apply Forall_forall. intros x I. rewrite !in_app_iff in I. destruct I as [I | [I | [I | I]]]; [destruct (Nat.odd _); [destruct I as [<- | []]; reflexivity | destruct I] | apply in_map_iff in I as (q & <- & _); reflexivity | destruct (size >? 0); [destruct I as [<- | []]; reflexivity | destruct I] | cbn in I; destruct I as [<- | [<- | []]]; reflexivity].
Qed.
