(** The code of an expression computes its value: addresses and members *)
From Verif Require Import Base SrtModel ImmcModel ImmcgenModel X64Isa X64Decode OpSpec TypeSpec TypeProofs CSem ImmcSem GenSpec ElabProofs GenProofs IsaProofs LabelSpec ExprProofs ExprProofs2 ExprProofs3 ExprProofs4.
Open Scope Z_scope.

Ltac einv H :=
  repeat match type of H with
  | bind (check ?b) _ = Ok _ =>
      let Z := fresh "Z" in destruct b eqn:Z; cbn [check bind] in H; [| discriminate H]
  | bind _ _ = Ok _ => let x := fresh "x" in let M := fresh "V" in apply bind_ok in H as (x & M & H); cbv beta in H
  | (let 'pair _ _ := ?x in _) = _ => is_var x; destruct x
  end; cbv beta iota in H.

Lemma member_named_offset n ms : ImmcgenModel.member_offset ms n = option_map (fun m => snd m) (member_named n ms).
Proof.
  unfold member_named. induction ms as [| [[m d] off] r IH]; [reflexivity |]. cbn. destruct (name_eqb m n); [reflexivity | exact IH].
Qed.

Section Sim.
Variables (call : caller) (P : places) (params : list (size * Z)) (C : list immc).
Hypothesis NL : NoDup (labels C).
Hypothesis PP : places_ok P.
Notation go := (reaches call (p_label P) (p_frame P) params C).
Notation step := (istep call (p_label P) (p_frame P) params).
Notation at_ := (code_at C).
Notation ev := (eval call P).
Notation addr := (iaddress (p_label P) (p_frame P)).
Notation runs_to := (runs_to call P params C).
Notation concl := (concl call P params C).
Notation range := (eval_range call P PP).
Variable gen : option dtype -> srt -> gst -> gres.
Hypothesis G : forall od s st cs st', regular s = true -> gen od s st = Ok (cs, st') -> stable st st'.
Hypothesis X : simulated call P params C gen.
Notation child_int := (child_int_ok call P params C NL PP gen G X).
Notation child_reg := (child_reg_ok call P params C NL PP gen G X).
Notation child_ptr := (child_ptr_ok call P params C PP gen G X).
Notation jmp_cond := (jmp_cond_ok call P params C NL PP gen G X).

Notation finish := (finish call P params C NL gen G).
Notation operands := (operands call P params C NL PP gen G X).

(** ** Addresses *)
Lemma pointer_value n n' q d x sf r : has n n' q (DTYPE_POINTER d) x (IMMC_OPERAND_REG sf r) ->
  exists a, ivalue q (IMMC_OPERAND_REG sf r) = Some a /\ operand_size (IMMC_OPERAND_REG sf r) = Some S8 /\ low S8 a = low S8 x.
Proof.
  intros H. destruct (has_facts _ _ _ _ _ _ H) as (u & s & a & K & S & _ & V & L). injection K as <- <-. exists a. now splits.
Qed.
Lemma tomember_address_ok e c sc m n dp st cs st' Sc W b a off W' q p :
  srt_dtype e = Some (DTYPE_POINTER dp) -> srt_children c = [sc; m] -> srt_payload m = SPName n ->
  gen_tomember_address_expr gen e c st = Ok (cs, st') -> regular sc = true -> env Sc st ->
  ev Sc sc W = Ok (b, W') -> member_at Sc (srt_dtype sc) n = Ok off -> advance b off = Ok a -> at_ p cs -> i_world q = W ->
  concl e st st' p cs q W' a /\ stable st st'.
Proof.
  intros De Ch Pm H R En Eb Mb Ad A Wq. unfold gen_tomember_address_expr in H.
  destruct (two_children _ _ _ Ch) as [Gs Gm]. apply bind_ok in H as ([[c1 f] st1] & M1 & H).
  rewrite Gs, Gm in H. cbn [bind] in H. unfold member_at in Mb. destruct (srt_dtype sc) as [ds |] eqn:Ds; [| discriminate Mb].
  destruct ds; try discriminate Mb. unfold dty, deref in H. rewrite Ds in H. cbn [bind] in H.
  apply bind_ok in H as (sd & Sd & H). unfold srt_name in H. rewrite Pm in H. cbn [bind] in H. apply bind_ok in H as (off' & So & H).
  apply bind_ok in H as ([dst st3] & M3 & H). apply bind_ok in H as (st4 & M4 & H). injection H as <- <-.
  assert (A0 := proj1 (code_at_app _ _ _ _ A)).
  edestruct (child_reg) as (q1 & sf & rr & Ef & R1 & H1 & S1 & _); [exact M1 | exact Gs | exact R | exact En | exact Eb | exact Ds | reflexivity | exact A0 | exact Wq |]. subst f.
  assert (off' = off).
  { destruct (struct_members (s_tags Sc) ds) as [ms |] eqn:Sm; [| discriminate Mb]. destruct (member_named n ms) as [[[? ?] o] |] eqn:Mn; [| discriminate Mb]. injection Mb as ->.
    unfold struct_members in Sm. assert (Tg : s_tags Sc = g_tags st1) by (rewrite (proj2 En); symmetry; apply (st_tags _ _ S1)).
    rewrite Tg in Sm. destruct ds; try discriminate Sm.
    - match type of Sm with context [tag_search ?a ?b] => destruct (tag_search a b) as [[] |] end; try discriminate Sm. injection Sm as ->. injection Sd as <-.
      rewrite member_named_offset, Mn in So. cbn in So. now injection So.
    - injection Sm as ->. injection Sd as <-. rewrite member_named_offset, Mn in So. cbn in So. now injection So. }
  subst off'. destruct (pointer_value _ _ _ _ _ _ _ H1) as (va & Va & Sa & La). apply advance_ok in Ad as (-> & Ra & Rk).
  destruct (dest_facts e (DTYPE_POINTER dp) _ _ _ _ De M3 M4) as (Ed & _).
  split.
  - eapply (finish e (DTYPE_POINTER dp) true S8); [exact De | reflexivity | exact R1 | exact S1 | exact M3 | exact M4 | exact A | | apply keep_refl | exact (proj1 (proj2 R1)) |].
    + cbn [inst3 istep new_signed_int_immcope]. unfold common. rewrite Sa. cbn [operand_size suffix_size]. change (larger S8 S8) with S8. rewrite Va. cbn [ivalue].
      change (lit_value (new_signed IInt off)) with off. cbn [binop]. reflexivity.
    + rewrite low_interp. now apply low_add.
  - eapply stable_trans; [exact S1 |]. eapply stable_trans; [eapply dest_stable, M3 | eapply update_stable, M4].
Qed.
Lemma address_ok e st cs st' Sc W v W' q p :
  srt_type e = SRT_ADDR_EXPR ->
  gen_address_expr gen e st = Ok (cs, st') -> regular e = true -> env Sc st -> ev Sc e W = Ok (v, W') -> at_ p cs -> i_world q = W ->
  concl e st st' p cs q W' v.
Proof.
  intros T H R En E A Wq. destruct e as [et od pl ch]. cbn [srt_type] in T. subst et. cbn [eval] in E.
  destruct od as [d |]; try discriminate E. destruct d as [| | | | | | | | dp | | | | | | |]; try discriminate E.
  destruct ch as [| c [| ? ?]]; try discriminate E. unfold gen_address_expr in H. cbn [gchild srt_children nth_error deref bind] in H.
  assert (Rc := kid _ 0%nat _ (regular_kids _ R) eq_refl). destruct c as [ct cd cp cc]. destruct ct; try discriminate E; cbn [srt_type] in H.
  - (* *p *) destruct cc as [| p1 [| ? ?]]; try discriminate E. einv E. destruct (srt_dtype p1) as [d1 |] eqn:D1; [| discriminate Z].
    assert (Rp := kid _ 0%nat _ (regular_kids _ Rc) eq_refl). cbn in H. destruct (X _ _ _ _ _ _ _ _ _ _ H Rp En E A Wq) as (q1 & R1 & V1).
    exists q1. split; [exact R1 |]. intros d' u' s' D' K'. injection D' as <-. injection K' as <- <-.
    destruct (V1 _ _ _ D1 (pointer_kind _ Z)) as (r & Gr & B & (u & s & K & Sf & U & Rg) & L). rewrite (pointer_kind _ Z) in K. injection K as <- <-.
    exists r. splits; try (exact Gr); try (apply B); [| exact L]. exists true, S8. splits; auto. rewrite U. exact (uns_pointer _ Z).
  - (* member *) destruct cc as [| p1 [| [mt md [| mn | | |] ml] [| ? ?]]]; try discriminate E. einv E. injection E as <- <-.
    assert (Rp := kid _ 0%nat _ (regular_kids _ Rc) eq_refl).
    refine (proj1 (tomember_address_ok _ _ p1 (Srt mt md (SPName mn) ml) mn dp _ _ _ _ _ _ _ _ _ _ _ _ _ _ H Rp En V V0 V1 A Wq)); reflexivity.
  - (* variable *) destruct cp; try discriminate E. einv E. injection E as <- <-. unfold gen_identifier_address_expr in H.
    apply bind_ok in H as (src & M1 & H). apply bind_ok in H as ([dst st3] & M3 & H). apply bind_ok in H as (st4 & M4 & H). injection H as <- <-.
    destruct (ident_address P Sc st (Srt SRT_IDENT_EXPR cd (SPName n) cc) n _ _ En eq_refl M1 V) as [Mo Ad].
    change [inst2 IMMC_INST_ADDR dst src] with ([] ++ [inst2 IMMC_INST_ADDR dst src]) in *.
    eapply (finish (Srt SRT_ADDR_EXPR (Some (DTYPE_POINTER dp)) pl _) (DTYPE_POINTER dp) true S8); [reflexivity | reflexivity | apply runs_nil, Wq | apply stable_refl | exact M3 | exact M4 | exact A | | apply keep_refl | exact Wq | reflexivity].
    cbn [inst2 istep]. now rewrite Ad.
  - (* string *) destruct cp; try discriminate E. match type of E with context [p_string P ?i] => destruct (p_string P i) as [sa |] eqn:Es end; [| discriminate E]. injection E as <- <-.
    unfold gen_string_address_expr in H. cbn [srt_strid srt_payload bind] in H. apply bind_ok in H as ([dst st3] & M3 & H). apply bind_ok in H as (st4 & M4 & H). injection H as <- <-.
    match goal with |- concl _ _ _ _ [?i] _ _ _ => change [i] with ([] ++ [i]) in * end.
    eapply (finish (Srt SRT_ADDR_EXPR (Some (DTYPE_POINTER dp)) pl _) (DTYPE_POINTER dp) true S8); [reflexivity | reflexivity | apply runs_nil, Wq | apply stable_refl | exact M3 | exact M4 | exact A | | apply keep_refl | exact Wq | reflexivity].
    cbn [inst2 istep iaddress new_label_immcope]. rewrite <- (proj2 PP), Es. reflexivity.
Qed.
Lemma tomember_ok e st cs st' Sc W v W' q p :
  srt_type e = SRT_TOMEMBER_EXPR ->
  gen_tomember_expr gen e st = Ok (cs, st') -> regular e = true -> env Sc st -> ev Sc e W = Ok (v, W') -> at_ p cs -> i_world q = W ->
  concl e st st' p cs q W' v.
Proof.
  intros T H R En E A Wq. destruct e as [et od pl ch]. cbn [srt_type] in T. subst et. cbn [eval] in E.
  destruct od as [d |]; try discriminate E. destruct ch as [| p1 [| [mt md [| mn | | |] ml] [| ? ?]]]; try discriminate E. einv E. injection E as <- <-.
  unfold gen_tomember_expr in H. cbn [dty deref srt_dtype bind] in H. apply bind_ok in H as ([c1 st1] & M1 & H). apply bind_ok in H as (r & Gr & H).
  apply bind_ok in H as ([dst st3] & M3 & H). apply bind_ok in H as (st4 & M4 & H). injection H as <- <-.
  assert (Rp := kid _ 0%nat _ (regular_kids _ R) eq_refl). assert (A0 := proj1 (code_at_app _ _ _ _ A)).
  match type of M1 with gen_tomember_address_expr _ ?e ?c _ = _ => destruct (tomember_address_ok e c p1 (Srt mt md (SPName mn) ml) mn d _ _ _ _ _ _ _ _ _ _ _ eq_refl eq_refl eq_refl M1 Rp En V V0 V1 A0 Wq) as [(q1 & R1 & V4) S1] end.
  destruct (V4 _ _ _ eq_refl eq_refl) as (r1 & Gr1 & B1 & (u1 & s1 & K1 & Sf1 & U1 & Rg1) & _). injection K1 as <- <-.
  rewrite Gr1 in Gr. injection Gr as <-.
  unfold load_as in V2. destruct (kind d) as [[u s] |] eqn:K; [| discriminate V2]. destruct (load _ _ _) as [y |] eqn:Ld; [| discriminate V2]. injection V2 as <-.
  match type of M3 with create_dest_reg ?e _ = _ => destruct (dest_facts e d _ _ _ _ eq_refl M3 M4) as (Ed & _) end. assert (Wq1 := proj1 (proj2 R1)).
  match type of M3 with create_dest_reg ?e _ = _ => eapply (finish e d u s) end; [reflexivity | exact K | exact R1 | exact S1 | exact M3 | exact M4 | exact A | | apply keep_refl | exact Wq1 |].
  - cbn [inst2 istep new_ptr_immcope is_memory iaddress]. cbn [reg_id]. rewrite Rg1, Ed. cbn [operand_size]. rewrite (suffix_kind _ _ _ K), Wq1.
    apply advance_ok in V1 as (_ & Ra & _). rewrite (low_small S8) by exact Ra. rewrite Ld. reflexivity.
  - now rewrite low_interp.
Qed.
End Sim.
