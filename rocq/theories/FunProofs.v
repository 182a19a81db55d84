(** The code of a function does what the function does *)
From Verif Require Import Base SrtModel ImmcModel ImmcgenModel X64Isa X64Decode OpSpec TypeSpec TypeProofs CSem CProgram ImmcSem GenSpec ElabProofs GenProofs IsaProofs LabelSpec ExprProofs ExprProofs2 ExprProofs7 ExprProofs8 StmtProofs StmtProofs2 StmtProofs3.
Open Scope Z_scope.

Lemma kind_suffix d u s : kind d = Some (u, s) -> suffix_size (immcsuffix_get (dtype_nbytes d)) = Some s.
Proof. destruct d; try discriminate; intros H; injection H as <- <-; reflexivity. Qed.
(** the scopes of the body of a function, after its parameters *)
Fixpoint param_scopes (ps : list (option name * dtype)) (Sc : scopes) : res scopes :=
  match ps with
  | [] => Ok Sc
  | (Some n, d) :: ps => do y <- sym_define_memory (s_syms Sc) n d; param_scopes ps (mkscopes y (s_tags Sc))
  | (None, _) :: _ => Fatal
  end.
Lemma bind_params_scopes P : forall ps args Sc W Sc' W', bind_params P ps args Sc W = Ok (Sc', W') -> param_scopes ps Sc = Ok Sc'.
Proof.
  induction ps as [| [[n |] d] ps IH]; intros args Sc W Sc' W' H; destruct args as [| [s x] args]; try discriminate H.
  - now injection H as <- _.
  - cbn [bind_params param_scopes] in *. apply bind_ok in H as ([] & _ & H). apply bind_ok in H as (y & -> & H). apply bind_ok in H as (a & _ & H). apply bind_ok in H as (W1 & _ & H). cbn [bind]. eapply IH; exact H.
Qed.

Lemma define_memory_length t n d t' : sym_define_memory t n d = Ok t' -> length t' = length t.
Proof.
  unfold sym_define_memory. intros H. apply bind_ok in H as (b & _ & H). destruct t as [| sc r]; [discriminate H |]. destruct b; [| now injection H as <-]. apply bind_ok in H as (nb & _ & H). now injection H as <-.
Qed.
Lemma define_label_length t n d t' : sym_define_label t n d = Ok t' -> length t' = length t.
Proof.
  unfold sym_define_label. intros H. apply bind_ok in H as (b & _ & H). destruct t as [| sc r]; [discriminate H |]. injection H as <-. now destruct b.
Qed.
Lemma set_nbytes_length t z t' : sym_set_nbytes t z = Ok t' -> length t' = length t.
Proof. unfold sym_set_nbytes. destruct t; [discriminate |]. intros H. now injection H as <-. Qed.

Section Sim.
Variables (call : caller) (P : places) (params : list (size * Z)) (C : list immc).
Hypothesis NL : NoDup (labels C).
Hypothesis PP : places_ok P.
Notation go := (reaches call (p_label P) (p_frame P) params C).
Notation at_ := (code_at C).
Notation moves := (moves call P params C).

(** nothing but the symbols changes *)
Lemma params_ok : forall ps args pre Sc st cs st' W Sc' W' q p,
  gen_params ps (Z.of_nat (length pre)) st = Ok (cs, st') -> env Sc st -> bind_params P ps args Sc W = Ok (Sc', W') -> params = pre ++ args -> at_ p cs -> i_world q = W ->
  (exists q', moves p q (p + length cs) q' /\ i_world q' = W') /\ env Sc' st' /\ st' = gset_syms (g_syms st') st /\ length (g_syms st') = length (g_syms st).
Proof.
  induction ps as [| [[n |] d] ps IH]; intros args pre Sc st cs st' W Sc' W' q p H En B Ep A Wq; destruct args as [| [s x] args]; try discriminate B.
  - injection H as <- <-. injection B as <- <-. split; [exists q; split; [cbn; rewrite Nat.add_0_r; apply moves_refl | exact Wq] |]. split; [exact En |]. split; [now destruct st | reflexivity].
  - cbn [gen_params bind_params deref bind] in H, B. apply bind_ok in H as (y & Hy & H). apply bind_ok in H as (sy & Hs & H). apply deref_ok in Hs. apply bind_ok in H as (off & Ho & H).
    apply bind_ok in H as ([c1 st1] & H1 & H). injection H as <- <-. apply bind_ok in B as ([] & Ck & B). assert (En' := En). destruct En' as [E1 E2]. rewrite E1, Hy in B. cbn [bind] in B.
    apply bind_ok in B as (a & Ha & B). apply bind_ok in B as (W1 & Hw & B). unfold check in Ck. destruct (kind d) as [[u z] |] eqn:Ek; [| discriminate Ck]. destruct (size_eqb s z) eqn:Ez; [| discriminate Ck]. clear Ck.
    assert (s = z) by (destruct s, z; try discriminate Ez; reflexivity). subst z.
    assert (E3 : env (mkscopes y (s_tags Sc)) (gset_syms y st)) by (split; [reflexivity | exact E2]).
    unfold var_address in Ha. cbn [s_syms] in Ha. rewrite Hs in Ha. destruct sy as [kk dd]. cbn [sy_kind] in Ho. destruct kk as [| o |]; try discriminate Ho. injection Ho as <-. injection Ha as <-.
    unfold store_as in Hw. rewrite Ek in Hw. destruct (store (w_mem W) s _ x) as [m |] eqn:St; [| discriminate Hw]. injection Hw as <-.
    set (q1 := set_world (set_wmem W m) q).
    assert (G : go p q (S p) q1).
    { eapply go_next; [exact NL | exact A |]. unfold inst2. cbn [istep iaddress new_mem_immcope new_signed_arg_immcope reg_id]. rewrite (kind_suffix _ _ _ Ek), Nat2Z.id, Ep, nth_error_app2, Nat.sub_diag by lia. cbn [nth_error].
      rewrite Ez. replace (0 <=? Z.of_nat (length pre)) with true by (symmetry; apply Z.leb_le; lia). cbn [andb]. rewrite Wq, St. reflexivity. }
    assert (Hd := H1). replace (Z.of_nat (length pre) + 1) with (Z.of_nat (length (pre ++ [(s, x)]))) in H1 by (rewrite app_length; cbn [length]; lia).
    destruct (IH args (pre ++ [(s, x)]) _ _ _ _ _ _ _ q1 (S p) H1 E3 B) as ((q2 & M2 & Wq2) & E4 & Est & L4); [rewrite <- app_assoc; exact Ep | exact (at_cons C NL _ _ _ A) | reflexivity |].
    split; [| split; [exact E4 |]].
    + exists q2. split; [| exact Wq2]. cbn [length]. rewrite <- Nat.add_succ_comm. eapply moves_trans; [split; [exact G | split; reflexivity] | exact M2].
    + split; [rewrite Est; reflexivity |]. rewrite L4. cbn [g_syms gset_syms]. exact (define_memory_length _ _ _ _ Hy).
Qed.

(** * A function *)
Definition value_of (fl : flow) : option (size * Z) := match fl with Return v => v | _ => None end.
Definition ends (p : nat) (q q' : istate) : Prop := exists j, go p q j q' /\ imove call (p_label P) (p_frame P) params C j q' = IEnd q'.

Lemma function_ok f x y n ps t z bx by_ body st cs st' Sc0 Sc1 Sc2 Sc3 W W1 k fl W' p q :
  gen_function_definition (gen f) (Srt SRT_FUNC_DEF x y [Srt SRT_IDENT_DECL (Some (DTYPE_FUNCTION ps t)) (SPName n) z; Srt SRT_CMPD_STMT bx by_ body]) st = Ok (cs, st') ->
  env Sc0 st -> length (g_syms st) = 1%nat -> -1 <= g_label st ->
  global n (DTYPE_FUNCTION ps t) Sc0 = Ok Sc1 -> function_scopes (mkfunc ps body Sc1) = Ok Sc2 -> bind_params P ps params Sc2 W = Ok (Sc3, W1) -> items_regular Sc3 body = true ->
  exec_list call P k None body Sc3 W1 = Ok (fl, W') -> (fl = Normal \/ exists v, fl = Return v) ->
  at_ p cs -> i_world q = W -> i_ret q = None ->
  exists q', ends p q q' /\ i_world q' = W' /\ i_ret q' = value_of fl.
Proof.
  intros H En Le Lp G F B R E Ef A Wq Rq. unfold gen_function_definition in H. cbn [gchild srt_children nth_error deref bind srt_name srt_payload dty srt_dtype] in H.
  apply bind_ok in H as (sy1 & D1 & H). unfold next_label in H. apply bind_ok in H as (sy2 & D2 & H). apply bind_ok in H as ([c1 st1] & H1 & H). apply bind_ok in H as ([c2 st2] & H2 & H).
  apply bind_ok in H as (nb & Hnb & H). apply bind_ok in H as (tg & Htg & H). apply bind_ok in H as (sy3 & Hs3 & H). apply bind_ok in H as (sy4 & Hs4 & H). injection H as <- _.
  destruct En as [E1 E2]. unfold global in G. rewrite E1 in G. apply bind_ok in G as (b0 & _ & G). apply bind_ok in G as ([] & _ & G). cbn [g_syms gset_next] in D1. rewrite D1 in G. cbn [bind] in G. injection G as <-.
  unfold function_scopes in F. cbn [f_scopes s_syms s_tags] in F. rewrite D2 in F. cbn [bind] in F. injection F as <-.
  match type of H1 with gen_params _ _ ?s = _ => set (s1 := s) in * end.
  assert (Es : env (mkscopes sy2 (tag_enter (s_tags Sc0))) s1) by (split; [reflexivity | cbn; now rewrite E2]).
  assert (A0 := A). apply (at_cons C NL) in A0. assert (A1 := at_cons C NL _ _ _ A0). apply code_at_app in A1 as [A1 A2]. apply code_at_app in A2 as [A2 A3].
  destruct (params_ok ps params [] _ s1 c1 st1 W Sc3 W1 q (S (S p)) H1 Es B eq_refl A1 Wq) as ((q1 & M1 & Wq1) & E3 & Est & L3).
  assert (D3 : deep2 st1). { rewrite Est. split; cbn [g_syms gset_syms g_label]. - rewrite L3. cbn. rewrite (set_nbytes_length _ _ _ D2). cbn. rewrite (define_label_length _ _ _ _ D1), Le. lia. - cbn. lia. }
  destruct (exec_ok call P params C NL PP k) as (_ & X2 & _).
  assert (K := X2 None _ _ _ _ _ _ _ _ _ _ _ H2 R E3 D3 (none_ok _ _) E A2 Wq1). cbn [goal] in K.
  destruct (items_settle f (gen_settles f) _ _ _ _ _ R E3 D3 H2) as (Sc4 & _ & S2).
  assert (Lr := label_id_at C NL _ _ _ A3). assert (Gr := fun q => go_label_id call P params C NL _ _ _ q A3). apply (at_cons C NL) in A3.
  assert (G0 : go p q (S (S p)) q). { eapply go_trans; [eapply go_label; [exact NL | exact A] |]. eapply go_next; [exact NL | exact A0 | reflexivity]. }
  destruct K as (q2 & Wq2 & Aq2 & Rq2 & G2). exists q2.
  assert (Rv : i_ret q2 = value_of fl). { rewrite Rq2. destruct M1 as (_ & _ & M1). destruct Ef as [-> | [[v |] ->]]; cbn [value_of]; rewrite ?M1, ?Rq; reflexivity. }
  split; [| split; [exact Wq2 | exact Rv]].
  set (pr := (S (S p) + length c1 + length c2)%nat) in *. exists (S pr). split.
  - eapply go_trans; [exact G0 |]. eapply go_trans; [apply M1 |]. eapply go_trans; [| apply Gr]. destruct Ef as [-> | [v ->]]; [exact G2 |]. apply G2. rewrite <- (se_ret _ _ _ _ _ S2). exact Lr.
  - destruct A3 as (pre & post & Ec & Lpre). unfold imove. rewrite Ec, nth_error_app2 by lia. rewrite Lpre, Nat.sub_diag. reflexivity.
Qed.
End Sim.
