(** C45: whole programs *)
From Verif Require Import Base SrtModel ResolverModel ImmcModel ImmcgenModel RegallocModel X64Model X64genModel X64Decode X64Isa LabelSpec LabelProofs LabelProofs2 LabelProofs3 RegSpec CallSpec CallProofs CallProofs2 CallProofs3 CallProofs4 CallProofs5 ElabProofs IsaProofs.
Local Open Scope Z_scope.
Local Open Scope bool_scope.
Ltac splits := repeat match goal with |- _ /\ _ => split end.

Section Spans.
Context {T : Type} (ext : T -> bool).
Lemma xspan_unique : forall a a' b b', a ++ b = a' ++ b' -> Forall (fun c => ext c = false) a -> Forall (fun c => ext c = false) a' -> (match b with [] => True | c :: _ => ext c = true end) -> (match b' with [] => True | c :: _ => ext c = true end) -> a = a' /\ b = b'.
Proof.
  induction a as [| x a IH]; intros [| y a'] b b' E F F' B B'; cbn in E.
  - auto.
  - subst b. apply Forall_inv in F'. congruence.
  - subst b'. apply Forall_inv in F. congruence.
  - injection E as -> E. destruct (IH _ _ _ E (Forall_inv_tail F) (Forall_inv_tail F') B B') as [-> ->]. auto.
Qed.
Lemma xafter_span : forall a A x r rest, A ++ x :: r = a ++ rest -> Forall (fun c => ext c = false) a -> ext x = true -> exists A2, A = a ++ A2 /\ rest = A2 ++ x :: r.
Proof.
  induction a as [| c a IH]; intros A x r rest E F X; [exists A; auto |]. destruct A as [| c' A]; cbn in E; injection E as -> E; [apply Forall_inv in F; congruence |].
  destruct (IH _ _ _ _ E (Forall_inv_tail F) X) as (A2 & -> & ->). exists A2. auto.
Qed.
End Spans.
Inductive xitems (k : bool) : list x64 -> Prop :=
| xitems_nil : xitems k []
| xitems_function F v n body rest : framed k F -> F = X64_LABEL X64_LABEL_FUNCTION v n :: body -> Forall (fun c => x64_external c = false) body -> xitems k rest -> xitems k (F ++ rest)
| xitems_data v n ds rest : Forall (fun c => x64_external c = false) ds -> xitems k rest -> xitems k (X64_LABEL X64_LABEL_VARIABLE v n :: ds ++ rest).
Lemma xitems_head k X : xitems k X -> match X with [] => True | c :: _ => x64_external c = true end.
Proof. intros H. destruct H; [exact Logic.I | subst F; reflexivity | reflexivity]. Qed.
Lemma xitems_framed k X F : xitems k X -> x64_function X F -> framed k F.
Proof.
  intros H. induction H as [| G v n body rest FR EG NB XI IH | v n ds rest ND XI IH]; intros (before & after & w & nm & bd & EX & EF & NB' & AF); subst F.
  - destruct before; discriminate EX.
  - subst G. destruct before as [| c before]; cbn [app] in EX.
    + injection EX as -> -> EX. apply xspan_unique with (ext := x64_external) in EX as [-> ->]; auto; [now apply Forall_forall | exact (xitems_head _ _ XI)].
    + injection EX as <- EX. cbn [app] in EX. symmetry in EX. destruct (xafter_span _ _ _ _ _ _ EX NB eq_refl) as (A2 & -> & ->). apply IH. exists A2, after, w, nm, bd. auto.
  - destruct before as [| c before]; cbn [app] in EX; [discriminate EX |]. injection EX as <- EX. symmetry in EX. destruct (xafter_span _ _ _ _ _ _ EX ND eq_refl) as (A2 & -> & ->). apply IH. exists A2, after, w, nm, bd. auto.
Qed.
Lemma items_head k l : items k l -> match l with [] => True | c :: _ => external c = true end.
Proof. intros H. destruct H as [| fn rest (v & n & s & i & body & -> & _) _ |]; [exact Logic.I | reflexivity | reflexivity]. Qed.
Lemma finish_names cs st ds st' : finish cs st = Ok (ds, st') -> ds = cs.
Proof. intros H. now apply finish_ok in H as [-> _]. Qed.
Lemma datas_plain rest : match rest with [] => True | c :: _ => external c = true end -> forall ds st cs r st', Forall (fun c => external c = false) ds -> gen_datas_x64code (ds ++ rest) st = Ok (cs, r, st') ->
  r = rest /\ Forall (fun c => x64_external c = false) cs /\ names_of cs = labels ds.
Proof.
  intros RH. induction ds as [| d ds IH]; intros st cs r st' ND H.
  - cbn [app] in H. destruct rest as [| c rest]; cbn [gen_datas_x64code] in H; [injection H as <- <- <-; auto |]. change (is_external_label c) with (external c) in H. rewrite RH in H. injection H as <- <- <-. auto.
  - cbn [app gen_datas_x64code] in H. change (is_external_label d) with (external d) in H. rewrite (Forall_inv ND) in H. destruct d as [| t i | t s |]; try discriminate H;
      apply bind_ok in H as ([c1 st1] & H1 & H); apply bind_ok in H as ([[c2 r2] st2] & H2 & H); injection H as <- <- <-; apply (IH _ _ _ _ (Forall_inv_tail ND)) in H2 as (-> & F & N);
      (split; [reflexivity |]); destruct t; try discriminate H1; apply finish_names in H1; subst c1; (split; [now constructor | exact N]).
Qed.
Lemma externals_items k : forall f l st X, items k l -> gen_externals_x64code f l st = Ok X -> xitems k X /\ names_of X = labels l.
Proof.
  induction f as [| f IH]; intros l st X I H; [discriminate H |]. cbn [gen_externals_x64code] in H. destruct I as [| fn rest FN I | v n ds rest ND I].
  - injection H as <-. split; [constructor | reflexivity].
  - assert (FN' := FN). destruct FN as (v & n & s & i & body & E & _). rewrite E in H at 1. cbn [app] in H. apply bind_ok in H as ([[cs r] st1] & H1 & H). apply bind_ok in H as (ds & H2 & H). injection H as <-.
    apply (function_frame k) in H1 as (-> & FR & NM & n' & v' & b' & EC & NB); [| assumption]. apply (IH _ _ _ I) in H2 as (XI & NX). split; [eapply xitems_function; eassumption |]. rewrite names_app, NM, NX. unfold labels. now rewrite flat_map_app.
  - apply bind_ok in H as ([[cs r] st1] & H1 & H). apply bind_ok in H as (ds' & H2 & H). injection H as <-. unfold gen_variable_x64code in H1. apply bind_ok in H1 as ([lb st2] & H0 & H1). apply bind_ok in H1 as ([[dd r1] st3] & H1 & H3). injection H3 as <- <- <-.
    apply finish_names in H0. subst lb. apply datas_plain in H1 as (-> & F & N); [| exact (items_head _ _ I) | assumption]. apply (IH _ _ _ I) in H2 as (XI & NX). cbn [app]. split; [apply xitems_data; assumption |].
    change (n :: names_of (dd ++ ds') = n :: labels (ds ++ rest)). f_equal. rewrite names_app, N, NX. unfold labels. now rewrite flat_map_app.
Qed.
Lemma alike_labels l l' : Forall2 alike l l' -> labels l' = labels l.
Proof. induction 1 as [| c c' l l' S F IH]; [reflexivity |]. unfold labels in *. cbn. rewrite IH. destruct (alike_facts _ _ S) as (_ & -> & _). reflexivity. Qed.
Lemma NoDup_mid {T} (a b c : list T) : NoDup (a ++ b ++ c) -> NoDup b.
Proof.
  induction a as [| x a IH]; cbn; intros H; [| inversion H; auto]. induction b as [| y b IHb]; [constructor |]. cbn in H. inversion H; subst. constructor; [rewrite in_app_iff in *; tauto | auto].
Qed.
Theorem program_functions k a s cs code lives X F : resolve a = Ok s -> plain_names s -> immcgen s = Ok cs -> sound_calls k s -> allocate_regs (Z.to_nat NUM_CALLER_SAVED_REGS) cs = Ok (code, lives) -> x64gen code lives = Ok X ->
  x64_function X F -> framed k F /\ NoDup (names_of F).
Proof.
  intros R PN G SC AL XG XF. assert (AK := regs_alike _ _ _ _ AL). assert (IT := items_alike _ _ (program_items k _ _ _ R PN G SC) _ AK). destruct (externals_items k _ _ _ _ IT XG) as (XI & NX).
  split; [eapply xitems_framed; eassumption |]. destruct (program_labels _ _ _ R PN G) as (ND & _). rewrite <- (alike_labels _ _ AK), <- NX in ND. destruct XF as (be & af & v & n & bd & -> & _). rewrite !names_app in ND. now apply NoDup_mid in ND.
Qed.
Theorem stack_restored k a s cs code lives X F e m0 p m : resolve a = Ok s -> plain_names s -> immcgen s = Ok cs -> sound_calls k s -> allocate_regs (Z.to_nat NUM_CALLER_SAVED_REGS) cs = Ok (code, lives) -> x64gen code lives = Ok X ->
  x64_function X F -> word (rget (regs m0) RSP) -> steps e F (0%nat, m0) (p, m) -> 
  (returning e F p m -> rget (regs m) RSP = rget (regs m0) RSP) /\ (k = true -> rget (regs m0) RSP mod 16 = 8 -> calling e F p m -> rget (regs m) RSP mod 16 = 0).
Proof.
  intros R PN G SC AL XG XF W ST. destruct (program_functions _ _ _ _ _ _ _ _ R PN G SC AL XG XF) as (FR & ND). destruct (framed_steady _ _ FR) as [SN JL CA RT].
  assert (RD := run_depth e F SN ND JL _ _ ST _ W). cbn [fst snd] in RD. unfold depth at 1 in RD. cbn [firstn] in RD. change (xgrown []) with 0 in RD. rewrite Z.sub_0_r in RD. rewrite low_small in RD by exact W. specialize (RD eq_refl). split.
  - intros (t & s0 & d & i & E & D & EX). destruct (exec_returns _ _ _ _ _ _ _ D EX) as [_ RR]. rewrite RD, (RT _ _ E RR), Z.sub_0_r. now apply low_small.
  - intros KT AL0 (t & s0 & d & i & E & D & EX). destruct (exec_calls _ _ _ _ _ _ _ D EX) as (_ & CC & _). assert (M := CA KT _ (call_at_depth _ _ _ E CC)). rewrite RD. unfold low. change (2 ^ _) with (2 ^ 64). 
    assert (Q : (rget (regs m0) RSP - depth F p) mod 16 = 0) by (clear - AL0 M; Z.div_mod_to_equations; lia). set (z := rget (regs m0) RSP - depth F p) in *. clearbody z. clear - Q. Z.div_mod_to_equations. lia.
Qed.
