(** Proofs for C35 and C36: functions and programs *)
From Verif Require Import Base AstModel DtypeModel SymtabModel SrtModel ResolverModel ImmcModel ImmcSem ImmcgenModel TypeSpec ElabSpec ElabProofs ElabProofs2 ElabProofs5 ResolverSpec ResolverProofs LabelSpec LabelProofs LabelProofs2 LabelProofs3 RegallocModel RegSpec RegProofs6 GenSpec OrderSpec OrderProofs OrderProofs2 PaceProofs OrderProofs3 OrderProofs4 OrderProofs6 OrderProofs5 OrderProofs7.
Local Open Scope Z_scope.
#[local] Arguments create_label_name : simpl never.
#[local] Arguments create_sliteral_label : simpl never.

(** code made of functions and objects; the functions are orderly if their labels are distinct *)
Definition quiet (cs : list immc) : Prop := Forall (fun c => external c = false) cs.
Definition regular_code (fn : list immc) : Prop := orderly fn /\ paced fn /\ fresh_loops fn.
Inductive pieces : list immc -> Prop :=
| pieces_nil : pieces []
| pieces_function v n body rest : quiet body -> (NoDup (labels (IMMC_LABEL IMMC_LABEL_FUNCTION v n :: body)) -> regular_code (IMMC_LABEL IMMC_LABEL_FUNCTION v n :: body)) ->
    pieces rest -> pieces (IMMC_LABEL IMMC_LABEL_FUNCTION v n :: body ++ rest)
| pieces_object v n body rest : quiet body -> pieces rest -> pieces (IMMC_LABEL IMMC_LABEL_VARIABLE v n :: body ++ rest).
Lemma pieces_app a b : pieces a -> pieces b -> pieces (a ++ b).
Proof. intros A B. induction A; [exact B | ..]; cbn [app]; rewrite <- app_assoc; constructor; auto. Qed.
Lemma pieces_head C c r : pieces C -> C = c :: r -> external c = true.
Proof. intros P E. destruct P; try discriminate E; injection E as <- _; reflexivity. Qed.
Lemma nodup_app_r {A} (a b : list A) : NoDup (a ++ b) -> NoDup b.
Proof. induction a; [auto |]. cbn. inversion 1. auto. Qed.
Lemma nodup_app_l {A} (a b : list A) : NoDup (a ++ b) -> NoDup a.
Proof.
  induction a as [| x a IH]; [constructor |]. cbn. inversion 1; subst. constructor; [| auto]. intros I. apply H2, in_app_iff. now left.
Qed.
Lemma pieces_orderly C : pieces C -> NoDup (labels C) -> forall fn, function_in C fn -> regular_code fn.
Proof.
  induction 1 as [| v n body rest Q O P IH | v n body rest Q P IH]; intros ND fn (A & B & EC & (w & m & x & Ef & Fx) & Hb); subst fn.
  - destruct A; discriminate EC.
  - assert (ND1 : NoDup (labels ((IMMC_LABEL IMMC_LABEL_FUNCTION v n :: body) ++ rest))) by exact ND. rewrite labels_app in ND1.
    destruct A as [| a A]; cbn [app] in EC.
    + injection EC as <- <- EC. destruct (span_unique _ _ _ _ EC Q Fx (fun c r E => pieces_head _ _ _ P E) Hb) as [<- <-]. apply O. eapply nodup_app_l, ND1.
    + injection EC as <- EC. symmetry in EC. destruct (after_span _ _ _ _ _ EC Q eq_refl) as (A2 & -> & ER). apply IH; [eapply nodup_app_r, ND1 |]. exists A2, B. split; [exact ER |]. split; [eexists _, _, _; split; [reflexivity | exact Fx] | exact Hb].
  - assert (ND1 : NoDup (labels ((IMMC_LABEL IMMC_LABEL_VARIABLE v n :: body) ++ rest))) by exact ND. rewrite labels_app in ND1.
    destruct A as [| a A]; cbn [app] in EC; [discriminate EC |]. injection EC as <- EC. symmetry in EC. destruct (after_span _ _ _ _ _ EC Q eq_refl) as (A2 & -> & ER). apply IH; [eapply nodup_app_r, ND1 |]. exists A2, B. split; [exact ER |]. split; [eexists _, _, _; split; [reflexivity | exact Fx] | exact Hb].
Qed.

Lemma last_snoc {A} (l : list A) x : last_error (l ++ [x]) = Some x.
Proof. unfold last_error. rewrite app_length, nth_error_app2; cbn; [| lia]. replace (length l + 1 - 1 - length l)%nat with 0%nat by lia. reflexivity. Qed.
Lemma inner_quiet cs : (forall x, In x cs -> ~ entry x) -> quiet cs.
Proof.
  intros H. apply Forall_forall. intros x I. destruct (external x) eqn:E; [| reflexivity]. destruct (H x I). destruct x as [| | | t v n]; try discriminate E. exists v, n. destruct t; try discriminate E; auto.
Qed.
Lemma plain_quiet cs : Forall plain cs -> quiet cs.
Proof. apply Forall_impl. intros c H. destruct c; try reflexivity. destruct H. Qed.
Lemma params_items : forall ps i st cs st', gen_params ps i st = Ok (cs, st') -> g_next st' = g_next st /\ exists ks, codes ks = cs /\ forall X n, ok_items X ks n n.
Proof.
  induction ps as [| [n d] ps IH]; intros i st cs st' H; cbn in H; [injection H as <- <-; split; [reflexivity | exists []; split; [reflexivity | constructor]] |].
  ginv H. injection H as <- <-. apply IH in M3 as (N & ks & E & O). split; [exact N |].
  eexists (([], [inst2 IMMC_INST_LDARG (new_mem_immcope _) (new_signed_arg_immcope _ _)]) :: ks). split; [cbn [flat_map item_code fst snd app]; rewrite E; reflexivity |].
  intros X m. econstructor; [apply ok_inst; reflexivity | apply O].
Qed.
Lemma function_pieces f E a s E' st cs st' : function_definition E a s E' -> everywhere fine s ->
  file_scope st -> gen f None s st = Ok (cs, st') -> pieces cs /\ file_scope st'.
Proof.
  intros F W S H. destruct F as [E t p ts q specs da tb qb items cs0 base E1 n ps ret E2 syms1 syms2 syms3 body E3 syms4 E4 D0 D1 D2 D3 D4 D5 D6 B D7 D8].
  pose proof (proj2 (stmt_inside (mkcontext false false (Some ret))) _ _ _ _ B) as I. cbn [in_loop in_switch orb] in I.
  pose proof (proj2 (stmt_shaped (mkcontext false false (Some ret))) _ _ _ _ B) as Sh.
  destruct f as [| f]; [discriminate |]. cbn [gen] in H. unfold gen_body in H. cbn [srt_type] in H. unfold gen_function_definition in H.
  unfold next_label in H. cbn [gchild nth_error srt_children deref bind srt_name srt_payload dty srt_dtype stmt_node] in H.
  apply bind_ok in H as (t1 & M1 & H). cbv zeta in H. apply bind_ok in H as (t2 & M2 & H). cbv beta iota zeta in H. cbn [bind] in H.
  apply bind_ok in H as ([c1 g1] & M3 & H). apply bind_ok in H as ([c2 g2] & M4 & H). apply bind_ok in H as (nb & M5 & H). cbv zeta in H.
  apply bind_ok in H as (tg & M6 & H). apply bind_ok in H as (t3 & M7 & H). apply bind_ok in H as (t4 & M8 & H). injection H as <- <-.
  pose proof (params_items _ _ _ _ _ M3) as (N1 & k1 & E1k & O1). apply params_plain in M3 as [P S1].
  assert (L2 : length t2 = 2%nat).
  { apply define_label_length in M1. unfold file_scope in S. rewrite S in M1. unfold sym_set_nbytes, sym_enter in M2. injection M2 as <-. cbn. now rewrite M1. }
  assert (De : deep (false, true) g1). { intros _. destruct S1 as (_ & _ & _ & _ & _ & _ & ->). cbn. now rewrite L2. }
  assert (A : lab false (false, true) g1 c2 g2) by (eapply lab_list; [exact (gen_lab f) | exact I | exact De | exact M4]).
  assert (Rd : Forall (ready false (false, true) false) body).
  { apply shaped_list; [exact I | | exact Sh]. apply fine_children in W. cbn [srt_children stmt_node] in W. inversion W as [| ? ? _ W1]; subst. inversion W1 as [| ? ? W2 _]; subst. exact (fine_children _ W2). }
  pose proof (sq_list f (gen_sq f) false (false, true) false eq_refl _ _ _ _ Rd De M4) as (k2 & E2k & _ & O2 & _ & _ & St & DD).
  destruct S1 as (S1 & S2 & S3 & S4 & S5 & S6 & S7). cbn in S1, S2, S3, S4, S5, S6, S7.
  split.
  - cbn [app]. unfold new_label_immc.
    set (e := IMMC_INST IMMC_INST_ENTER _ _ _). set (lv := IMMC_INST IMMC_INST_LEAVE _ _ _).
    match goal with |- pieces (?x :: ?r) => rewrite <- (app_nil_r r) end. apply pieces_function; [| | constructor].
    + constructor; [reflexivity |]. apply Forall_app. split; [now apply plain_quiet |]. apply Forall_app. split; [apply inner_quiet, A | repeat constructor].
    + intros ND. set (items0 := [([], [IMMC_LABEL IMMC_LABEL_FUNCTION IMMC_VIS_GLOBAL n])] ++ [([], [e])] ++ k1 ++ k2 ++ [([], [normal_label (g_ret g2)])] ++ [([], [lv])]).
      assert (EC : codes items0 = IMMC_LABEL IMMC_LABEL_FUNCTION IMMC_VIS_GLOBAL n :: e :: c1 ++ c2 ++ [normal_label (g_ret g2); lv]).
      { unfold items0. rewrite !codes_app, E1k, E2k. reflexivity. }
      rewrite <- EC in ND |- *.
      assert (Ok : ok_items (fun n => In n (all_marks items0)) items0 (-1) (g_next g2)).
      { set (X := fun n => In n (all_marks items0)). unfold items0.
        assert (Z : g_next g1 = -1) by (rewrite N1; reflexivity).
        eapply ok_items_app; [econstructor; [apply ok_lab | constructor] |]. eapply ok_items_app; [econstructor; [apply ok_inst; reflexivity | constructor] |].
        eapply ok_items_app; [apply O1 |]. eapply ok_items_app; [rewrite <- Z; eapply ok_items_mono; [| exact O2] |].
        -- subst X items0. intros m [J | [[J _] | [[J _] | [_ J]]]]; try discriminate J.
           ++ cbn beta. revert J. in_marks.
           ++ cbn beta. subst m. destruct St as (_ & _ & <-). in_marks.
        -- eapply ok_items_app; [econstructor; [apply ok_lab | constructor] |]. econstructor; [apply ok_inst; reflexivity | constructor]. }
      split; [| split; [exact (items_paced items0 _ (-1) _ Ok ltac:(lia)) | exact (items_fresh items0 (-1) (g_next g2) ND Ok)]]. apply (items_orderly items0 (-1) (g_next g2) ND Ok).
      * intros c La. unfold items0 in La. rewrite !app_assoc, codes_app in La. change (codes [([], [lv])]) with [lv] in La.
        rewrite last_snoc in La. injection La as <-. reflexivity.
  - unfold file_scope. cbn. rewrite S7, L2 in DD. unfold sym_set_nbytes in M7. destruct (g_syms g2) as [| s0 r]; [discriminate |]. injection M7 as <-.
    unfold sym_exit in M8. destruct r as [| s1 r]; injection M8 as <-; cbn in *; lia.
Qed.
Lemma init_decl_pieces f n decl rest st cs st' : declarator_names (Srt SRT_INIT_DECL None SPNone (decl :: rest)) = [n] ->
  Forall (everywhere sound_node) rest -> file_scope st -> gen f None (Srt SRT_INIT_DECL None SPNone (decl :: rest)) st = Ok (cs, st') -> pieces cs /\ file_scope st'.
Proof.
  intros N R S H. destruct f as [| f]; [discriminate |]. cbn [gen] in H. unfold gen_body in H. cbn [srt_type] in H. unfold gen_init_decl in H.
  assert (GL : is_global st = true) by (unfold is_global; rewrite S; reflexivity). rewrite GL in H. unfold gen_global_init_decl in H.
  apply bind_ok in H as ([c0 g0] & M0 & H). unfold append_child in M0. cbn [gchild nth_error srt_children deref bind] in M0, H.
  assert (X : lab false (false, false) st c0 g0 /\ c0 = []).
  { destruct f as [| f']; [discriminate |]. cbn [gen] in M0. unfold gen_body in M0. destruct decl as [t d p k].
    destruct t; cbn [declarator_names srt_type] in N, M0; try discriminate N.
    - split; [eapply lab_ident; exact M0 |]. unfold gen_identifier_decl in M0. ginv M0; injection M0 as <- <-; reflexivity.
    - split; [eapply lab_string; exact M0 |]. unfold gen_string_decl in M0. ginv M0; injection M0 as <- <-; reflexivity. }
  destruct X as [X ->]. apply bind_ok in H as (m & M1 & H). apply bind_ok in H as (y & M2 & H). pose proof (lab_depth _ _ _ _ _ X) as DX.
  destruct (negb _); [injection H as <- <-; split; [constructor | unfold file_scope in *; lia] |].
  destruct (Nat.eqb _ _).
  - apply bind_ok in H as (d & _ & H). injection H as <- <-. split; [| unfold file_scope in *; lia]. cbn [app]. match goal with |- pieces (?x :: ?r) => rewrite <- (app_nil_r r) end. apply pieces_object; [repeat constructor | constructor].
  - apply bind_ok in H as (i & M3 & H). apply bind_ok in H as ([c1 g1] & M4 & H). injection H as <- <-.
    assert (I : inside false (false, false) false i).
    { apply expr_inside. destruct rest as [| r0 rest]; [discriminate |]. cbn in M3. injection M3 as <-. now inversion R. }
    assert (A : lab false (false, false) g0 c1 g1) by (eapply gen_lab; [exact I | intros Q; discriminate Q | exact M4]). pose proof (lab_depth _ _ _ _ _ A) as DA.
    split; [| unfold file_scope in *; lia]. cbn [app]. match goal with |- pieces (?x :: ?r) => rewrite <- (app_nil_r r) end. apply pieces_object; [apply inner_quiet, A | constructor].
Qed.
Lemma declarators_pieces f td : forall E base ds ss E', init_declarators E td base ds ss E' ->
  forall st cs st', file_scope st -> append_list (gen f) ss st = Ok (cs, st') -> pieces cs /\ file_scope st'.
Proof.
  intros E base ds ss E'.
  induction 1 as [E td base | E td base t p da rest n d0 d E1 syms ss E2 H H0 H1 H2 H3 H4 IH | E td base t p da ia cs0 rest n d0 d E1 syms i E2 ss E3 H H0 H1 H2 H3 H4 H5 IH];
    intros st cs st' S A; cbn [append_list] in A.
  - injection A as <- <-. split; [constructor | exact S].
  - apply bind_ok in A as ([c g] & M1 & A). apply bind_ok in A as ([c' g'] & M2 & A). injection A as <- <-.
    apply (init_decl_pieces f n) in M1 as [K1 S1]; [| reflexivity | constructor | exact S]. apply IH in M2 as [K2 S2]; [| exact S1]. split; [now apply pieces_app | exact S2].
  - apply bind_ok in A as ([c g] & M1 & A). apply bind_ok in A as ([c' g'] & M2 & A). injection A as <- <-.
    apply (init_decl_pieces f n) in M1 as [K1 S1]; [| reflexivity | constructor; [| constructor]; eapply initializer_everywhere; eassumption | exact S]. apply IH in M2 as [K2 S2]; [| exact S1]. split; [now apply pieces_app | exact S2].
Qed.
Lemma string_pieces f s st cs st' : string_decl s = true -> file_scope st -> gen f None s st = Ok (cs, st') -> pieces cs /\ file_scope st'.
Proof.
  intros D S H. pose proof (string_decl_everywhere _ D) as W. apply string_shape in D as (id & str & n & m & O & ->).
  destruct f as [| f]; [discriminate |]. cbn [gen] in H. unfold gen_body in H. cbn [srt_type srt_children append_list] in H.
  apply bind_ok in H as ([c g] & M1 & H). cbn [bind] in H. injection H as <- <-. rewrite app_nil_r.
  eapply init_decl_pieces in M1; [exact M1 | reflexivity | | exact S].
  constructor; [| constructor]. intros around x OC.
  assert (I : everywhere sound_item (Srt SRT_INIT None SPNone [Srt SRT_SLITERAL_EXPR (Some (DTYPE_ARRAY DTYPE_CHAR m)) (SPStr str) []])).
  { eapply everywhere_child; [eapply everywhere_child; [exact W | now left] | right; now left]. }
  destruct (I _ _ OC) as (T1 & T2 & T3). split; [exact T1 |]. split; [exact T2 |]. unfold statement_nodes. intros Q. apply in_app_iff in Q as [Q | [Q | []]]; [exact (T3 Q) |].
  inversion OC as [| ? ? ? ? IN OC']; subst; [discriminate Q |]. cbn in IN. destruct IN as [<- | []].
  inversion OC' as [| ? ? ? ? IN']; subst; [discriminate Q | destruct IN'].
Qed.
Lemma item_pieces f s E E' items cs0 : unit_items E items (s :: cs0) E' -> everywhere fine s ->
  forall st cs st', file_scope st -> gen f None s st = Ok (cs, st') -> pieces cs /\ file_scope st'.
Proof.
  intros U W st cs st' S H. inversion U as [| ? ? ? ? ? K U' | ? ? ? ? ? ? ? T F U' | ? ? ? ? ? ? ? T F U']; subst.
  - destruct K as [K | K]; [| eapply string_pieces; eassumption].
    destruct s as [t d p l]. destruct t; try discriminate K. destruct f as [| f]; [discriminate |]. cbn [gen] in H. unfold gen_body in H. cbn [srt_type] in H.
    unfold gen_tag_decl in H. apply bind_ok in H as (d' & _ & H). destruct d'; try discriminate H; ginv H; injection H as <- <-; (split; [constructor | exact S]).
  - eapply function_pieces; eassumption.
  - destruct F as [? t p ts q l td specs base E1' D SP | ? t p ts q l tl ql ds cs1 td specs base E1' ss E2 D SP I];
      (destruct f as [| f]; [discriminate |]); cbn [gen] in H; unfold gen_body in H; cbn [srt_type srt_children append_list] in H.
    + injection H as <- <-. split; [constructor | exact S].
    + eapply declarators_pieces; eassumption.
Qed.
Lemma unit_pieces f : forall E items ss E', unit_items E items ss E' -> Forall (everywhere fine) ss ->
  forall st cs st', file_scope st -> append_list (gen f) ss st = Ok (cs, st') -> pieces cs.
Proof.
  intros E items ss. revert E items. induction ss as [| s ss IH]; intros E items E' U P st cs st' S A; cbn [append_list] in A.
  - injection A as <- <-. constructor.
  - apply bind_ok in A as ([c g] & M1 & A). apply bind_ok in A as ([c' g'] & M2 & A). injection A as <- <-. inversion P; subst.
    apply (item_pieces _ _ _ _ _ _ U) in M1 as [K1 S1]; [| assumption | exact S].
    assert (U' : exists E1 items', unit_items E1 items' ss E') by (inversion U; eauto). destruct U' as (E1 & items' & U').
    apply pieces_app; [exact K1 |]. eapply IH; [exact U' | assumption | exact S1 | exact M2].
Qed.
Lemma pointers_everywhere : forall s, pointers_last s = true -> everywhere (fun x => pointer_last x = true) s.
Proof.
  intros s H. induction s as [t d p cs IH] using srt_induction. cbn [pointers_last] in H. apply andb_prop in H as [H1 H2]. apply everywhere_node; [exact H1 |].
  rewrite forallb_forall in H2. rewrite Forall_forall in IH |- *. auto.
Qed.
(** the code of an accepted program is orderly *)
Lemma program_regular a s C : resolve a = Ok s -> plain_names s -> immcgen s = Ok C -> pointers_last s = true -> forall fn, function_in C fn -> regular_code fn.
Proof.
  intros R PN G PL. destruct (program_labels _ _ _ R PN G) as [ND _]. apply pieces_orderly; [| exact ND]. apply resolve_sound in R. pose proof (fun around x => program_typed a s around x R) as Ty.
  assert (W : everywhere fine s) by (intros around x O; split; [exact (Ty _ _ O) | exact (pointers_everywhere _ PL _ _ O)]). destruct R as (ss & E' & -> & U & ST).
  unfold immcgen in G. apply bind_ok in G as ([c g] & M & G). injection G as <-. cbn [gen] in M. unfold gen_body in M. cbn [srt_type stmt_node srt_children] in M.
  eapply unit_pieces; [exact U | exact (fine_children _ W) | | exact M]. reflexivity.
Qed.
Theorem program_orderly a s C : resolve a = Ok s -> plain_names s -> immcgen s = Ok C -> pointers_last s = true -> orderly_program C.
Proof. intros R PN G PL fn F. exact (proj1 (program_regular _ _ _ R PN G PL _ F)). Qed.
