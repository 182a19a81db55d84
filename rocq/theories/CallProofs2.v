(** Proofs for C34, C45: the stack in the intermediate code of whole programs *)
From Verif Require Import Base AstModel DtypeModel SymtabModel SrtModel ImmcModel ImmcgenModel ResolverModel RegallocModel TypeSpec ElabSpec ElabProofs ElabProofs2 ElabProofs5 ResolverSpec ResolverProofs LabelSpec LabelProofs LabelProofs2 LabelProofs3 RegSpec RegProofs RegProofs6 CallSpec CallProofs.
Local Open Scope Z_scope.
Notation L := create_label_name.
#[local] Arguments create_label_name : simpl never.
#[local] Arguments moves : simpl never.

(** * Calls in accepted programs *)
Fixpoint plain_calls (s : srt) : Prop :=
  let 'Srt t _ _ cs := s in
  fold_right and True (List.map plain_calls cs)
  /\ match t, cs with SRT_CALL_EXPR, [f; Srt _ _ _ args] => closed f /\ fold_right and True (List.map closed args) | _, _ => True end.
Definition even_at (k : option bool) (s : srt) : Prop := match k with Some p => evenly p s | None => True end.
Lemma plain_all (P : srt -> Prop) cs : fold_right and True (List.map P cs) -> forall x, In x cs -> P x.
Proof. intros H. apply inside_all in H. now apply Forall_forall. Qed.
Lemma even_children k t d p cs : t <> SRT_CALL_EXPR -> even_at k (Srt t d p cs) -> forall x, In x cs -> even_at k x.
Proof.
  destruct k as [q |]; [| intros; exact Logic.I]. cbn [even_at]. intros T H x I. assert (F : fold_right and True (List.map (evenly q) cs)) by (destruct t; try exact H; congruence). exact (plain_all _ _ F x I).
Qed.
Lemma calm_of : forall s, (forall k, plain_calls s -> few_arguments s -> even_at k s -> calm k s) /\ Forall (fun s => forall k, plain_calls s -> few_arguments s -> even_at k s -> calm k s) (srt_children s).
Proof.
  apply srt_induction. intros t d p cs IH. assert (F : Forall (fun s => forall k, plain_calls s -> few_arguments s -> even_at k s -> calm k s) cs) by (eapply Forall_impl; [| exact IH]; intros a Q; apply Q).
  split; [| exact F]. intros k PC FA EV.
  assert (GEN : t <> SRT_CALL_EXPR -> fold_right and True (List.map (calm k) cs)).
  { intros T. apply inside_all, Forall_forall. intros x I. rewrite Forall_forall in F. apply F; [exact I | | |].
    - cbn in PC. exact (plain_all _ _ (proj1 PC) x I).
    - cbn in FA. exact (plain_all _ _ (proj1 FA) x I).
    - now apply (even_children _ _ _ _ _ T EV). }
  destruct t; try (apply GEN; discriminate).
  destruct cs as [| f [| [ta da pa args] [| z cs]]]; cbn in PC, FA, EV |- *; try exact Logic.I.
  - splits; [| exact Logic.I]. apply (Forall_inv F); [apply PC | apply FA |]. destruct k; [apply EV | exact Logic.I].
  - destruct PC as ((P1 & (P2 & _) & _) & (P3 & P4)), FA as ((A1 & (A2 & _) & _) & A3).
    assert (FARGS := proj2 (Forall_inv (Forall_inv_tail IH))). cbn [srt_children] in FARGS.
    splits; auto.
    + destruct k as [q |]; [| discriminate]. cbn in EV. destruct EV as (-> & _). discriminate.
    + apply (Forall_inv F); auto. destruct k; [apply EV | exact Logic.I].
    + assert (E3 : match k with Some _ => (fix each (l : list srt) : Prop := match l with [] => True | a :: r => evenly (xorb (padded (length args)) (Nat.odd (length r))) a /\ each r end) args | None => True end) by (destruct k; [apply EV | exact Logic.I]).
      revert E3. generalize (padded (length args)). intros pad E3. clear - P2 A2 FARGS E3.
      induction args as [| a r IHr]; [exact Logic.I |]. split.
      * apply (Forall_inv FARGS); [apply P2 | apply A2 |]. destruct k; [apply E3 | exact Logic.I].
      * apply IHr; [apply P2 | apply A2 | apply (Forall_inv_tail FARGS) |]. destruct k; [apply E3 | exact Logic.I].
  - assert (Q : Forall (calm k) (f :: Srt ta da pa args :: z :: cs)); [| now apply inside_all in Q]. apply Forall_forall. intros x I. rewrite Forall_forall in F. apply F; [exact I | | |].
    + exact (plain_all plain_calls (f :: Srt ta da pa args :: z :: cs) (proj1 PC) x I).
    + exact (plain_all few_arguments (f :: Srt ta da pa args :: z :: cs) (proj1 FA) x I).
    + destruct k as [q |]; [| exact Logic.I]. exact (plain_all (evenly q) (f :: Srt ta da pa args :: z :: cs) EV x I).
Qed.
Lemma expr_plain : forall s, everywhere sound_node s -> plain_calls s.
Proof.
  apply (srt_induction (fun s => everywhere sound_node s -> plain_calls s)). intros t d p cs IH H. cbn. split.
  - apply inside_all. rewrite Forall_forall in IH |- *. intros x I. apply IH; [exact I |]. now apply (everywhere_child _ _ _ H).
  - destruct t; try exact Logic.I. destruct cs as [| f [| [ta da pa args] [| z cs]]]; try exact Logic.I. split.
    + apply expr_inside. eapply everywhere_child; [exact H |]. now left.
    + apply inside_all, Forall_forall. intros x I. apply expr_inside. eapply everywhere_child; [eapply everywhere_child; [exact H | right; now left] | exact I].
Qed.
Lemma value_plain E a s v E' : elab E a s E' -> value_of s v -> plain_calls v.
Proof. intros H V. apply expr_plain. eapply value_everywhere; [exact V |]. exact (proj1 elab_everywhere _ _ _ _ H). Qed.
Lemma declarators_plain E td base ds ss E' : init_declarators E td base ds ss E' -> Forall plain_calls ss.
Proof.
  induction 1; constructor; auto; cbn; splits; auto. apply expr_plain. eapply initializer_everywhere. eassumption.
Qed.
Lemma declaration_plain E a s E' : declaration_rule E a s E' -> plain_calls s.
Proof. intros [? ? ? ? ? ? ? ? ? ? ? | ? ? ? ? ? ? ? ? ? ? ? ? ? ? ? ? ? ? H]; cbn; [auto |]. split; [| auto]. apply inside_all. eapply declarators_plain. eassumption. Qed.
Lemma stmt_plain C :
  (forall E a s E', stmt C E a s E' -> plain_calls s) /\ (forall E items cs E', block C E items cs E' -> Forall plain_calls cs).
Proof.
  apply (stmt_mutind (fun C E a s E' => plain_calls s) (fun C E items cs E' => Forall plain_calls cs)); clear C; intros C; intros; cbn -[plain_calls].
  - cbn. split; [now apply inside_all | auto].
  - cbn. splits; auto. apply expr_plain. exact (proj1 elab_everywhere _ _ _ _ H0).
  - cbn. auto.
  - cbn. auto.
  - cbn. auto.
  - cbn. auto.
  - cbn. splits; auto. apply expr_plain. assert (V : everywhere sound_node v) by (eapply value_everywhere; [eassumption |]; exact (proj1 elab_everywhere _ _ _ _ H1)). eapply assigned_everywhere; eassumption.
  - cbn. splits; auto. eapply value_plain; eauto.
  - cbn. auto.
  - cbn. splits; auto. eapply value_plain; eauto.
  - cbn. splits; auto. eapply value_plain; eauto.
  - cbn. splits; auto. apply expr_plain. eapply promoted_everywhere; [eassumption |]. eapply value_everywhere; [eassumption |]. exact (proj1 elab_everywhere _ _ _ _ H).
  - cbn. splits; auto. eapply value_plain; eauto.
  - cbn. splits; auto.
  - cbn. splits; auto. eapply declaration_plain; eassumption.
  - constructor.
  - constructor; [| assumption]. destruct s as [t d p l]. unfold tag_decl in H. destruct t; try discriminate. destruct d as [[] |]; try discriminate. destruct p; try discriminate. destruct l; [| discriminate]. cbn. auto.
  - constructor; [eapply declaration_plain; eassumption | assumption].
  - constructor; assumption.
Qed.

(** * Functions and data *)
Definition immc_function (k : bool) (fn : list immc) : Prop :=
  exists v n s i body, fn = IMMC_LABEL IMMC_LABEL_FUNCTION v n :: IMMC_INST IMMC_INST_ENTER None (Some (IMMC_OPERAND_INT s i)) None :: body ++ [IMMC_INST IMMC_INST_LEAVE None (Some (IMMC_OPERAND_INT s i)) None]
    /\ lv k (fun _ => False) 0 0 body 0 /\ Forall (fun c => external c = false) body.
Inductive items (k : bool) : list immc -> Prop :=
| items_nil : items k []
| items_function fn rest : immc_function k fn -> items k rest -> items k (fn ++ rest)
| items_data v n ds rest : Forall (fun c => external c = false) ds -> items k rest -> items k (IMMC_LABEL IMMC_LABEL_VARIABLE v n :: ds ++ rest).
Lemma items_app k a b : items k a -> items k b -> items k (a ++ b).
Proof. intros A B. induction A as [| fn r F I IH | v n ds r F I IH]; [exact B | |]; cbn [app]; rewrite <- app_assoc; now constructor. Qed.
Lemma not_entry c : ~ entry c -> external c = false.
Proof. intros N. destruct c as [| | | t v n]; try reflexivity. destruct t; try reflexivity; destruct N; exists v, n; auto. Qed.
Lemma params_still : forall ps i st cs st', gen_params ps i st = Ok (cs, st') -> forallb still cs = true.
Proof.
  induction ps as [| [n d] ps IH]; intros i st cs st' H; cbn in H; [injection H as <- <-; reflexivity |].
  ginv H. injection H as <- <-. cbn. eapply IH. eassumption.
Qed.
Definition parity_of (k : bool) : option bool := if k then Some false else None.
Definition sound_calls (k : bool) (s : srt) : Prop := few_arguments s /\ (k = true -> evenly false s).
Lemma sound_even k s : sound_calls k s -> even_at (parity_of k) s.
Proof. intros [_ H]. destruct k; [now apply H | exact Logic.I]. Qed.
Lemma sound_child k s x : srt_type s <> SRT_CALL_EXPR -> sound_calls k s -> In x (srt_children s) -> sound_calls k x.
Proof.
  destruct s as [t d p cs]. cbn [srt_type srt_children]. intros T [A B] I. split; [cbn in A; exact (plain_all _ _ (proj1 A) x I) |].
  intros K. specialize (B K). exact (even_children (Some false) _ _ _ _ T B x I).
Qed.
Lemma function_items k f E a s E' st cs st' : function_definition E a s E' -> sound_calls k s -> file_scope st -> gen f None s st = Ok (cs, st') -> items k cs.
Proof.
  intros F SC S H. destruct F as [E t p ts q specs da tb qb its cs0 base E1 n ps ret E2 syms1 syms2 syms3 body E3 syms4 E4 D0 D1 D2 D3 D4 D5 D6 B D7 D8].
  pose proof (proj2 (stmt_inside (mkcontext false false (Some ret))) _ _ _ _ B) as I. cbn [in_loop in_switch orb] in I.
  pose proof (proj2 (stmt_plain (mkcontext false false (Some ret))) _ _ _ _ B) as PL.
  assert (CM : Forall (calm (parity_of k)) body).
  { apply Forall_forall. intros x Ix. assert (SX : sound_calls k x). { eapply sound_child; [| eapply sound_child; [| exact SC | right; now left] | exact Ix]; discriminate. }
    apply (proj1 (calm_of x)); [rewrite Forall_forall in PL; auto | apply SX | now apply sound_even]. }
  destruct f as [| f]; [discriminate |]. cbn [gen] in H. unfold gen_body in H. cbn [srt_type] in H. unfold gen_function_definition in H.
  unfold next_label in H. cbn [gchild nth_error srt_children deref bind srt_name srt_payload dty srt_dtype stmt_node] in H.
  apply bind_ok in H as (t1 & M1 & H). cbv zeta in H. apply bind_ok in H as (t2 & M2 & H). cbv beta iota zeta in H. cbn [bind] in H.
  apply bind_ok in H as ([c1 g1] & M3 & H). apply bind_ok in H as ([c2 g2] & M4 & H). apply bind_ok in H as (nb & M5 & H). cbv zeta in H.
  apply bind_ok in H as (tg & M6 & H). apply bind_ok in H as (t3 & M7 & H). apply bind_ok in H as (t4 & M8 & H). injection H as <- <-.
  assert (ST := params_still _ _ _ _ _ M3). apply params_plain in M3 as [P S1].
  assert (L2 : length t2 = 2%nat).
  { apply define_label_length in M1. unfold file_scope in S. rewrite S in M1. unfold sym_set_nbytes, sym_enter in M2. injection M2 as <-. cbn. now rewrite M1. }
  assert (A : lev (parity_of k) false (false, true) false g1 c2 g2).
  { eapply (lev_list (gen f) (gen_lev f)); [| | exact M4]; [apply Forall_forall; intros x Ix; rewrite Forall_forall in I, CM; auto |]. intros _. destruct S1 as (_ & _ & _ & _ & _ & _ & ->). cbn. now rewrite L2. }
  match goal with |- items _ ?l => rewrite <- (app_nil_r l) end. apply items_function; [| constructor].
  eexists _, n, _, _, (c1 ++ c2 ++ [normal_label (g_ret g2)]). split; [cbn [app]; rewrite <- !app_assoc; reflexivity |]. split.
  - destruct A as (A0 & [A1 _ _] & _). assert (A2 := A1 0 (match k as b return parity (parity_of b) 0 with true => eq_refl | false => Logic.I end)).
    assert (PK : pk (parity_of k) = k) by (now destruct k). rewrite PK in A2.
    apply (lv_weaken _ (fun l => l = L (g_ret g2))).
    + intros l ->. right. assert (G0 : grown c1 = 0) by (destruct (lv_still k (fun _ => False) 0 0 c1 ST) as (Q & _); lia). assert (G1 : grown c2 = 0) by (destruct A2 as (Q & _); lia).
      apply here_skip; [exact G0 |]. apply here_skip; [exact G1 | apply here_now].
    + apply (lv_app _ _ _ 0 _ 0); [now apply lv_still |]. apply (lv_app _ _ _ 0 _ 0); [| now apply lv_one].
      eapply lv_weaken; [| exact A2]. intros l [[Q _] | [[Q _] | [_ Q]]]; try discriminate Q. left. rewrite Q. f_equal. symmetry. apply (lab_ret _ _ _ _ _ A0).
  - apply Forall_app. split; [| apply Forall_app; split; [| repeat constructor]].
    + eapply Forall_impl; [| exact P]. intros x X. destruct x; try reflexivity. destruct X.
    + apply Forall_forall. intros x X. apply not_entry. now apply (lab_inner _ _ _ _ _ (proj1 A)).
Qed.
Lemma init_decl_items k f n decl rest st cs st' : declarator_names (Srt SRT_INIT_DECL None SPNone (decl :: rest)) = [n] ->
  Forall (everywhere sound_node) rest -> file_scope st -> gen f None (Srt SRT_INIT_DECL None SPNone (decl :: rest)) st = Ok (cs, st') -> items k cs /\ file_scope st'.
Proof.
  intros N R S H. destruct f as [| f]; [discriminate |]. cbn [gen] in H. unfold gen_body in H. cbn [srt_type] in H. unfold gen_init_decl in H.
  assert (GL : is_global st = true) by (unfold is_global; rewrite S; reflexivity). rewrite GL in H. unfold gen_global_init_decl in H.
  apply bind_ok in H as ([c0 g0] & M0 & H). unfold append_child in M0. cbn [gchild nth_error srt_children deref bind] in M0, H.
  assert (X : lab false (false, false) st c0 g0 /\ c0 = []).
  { destruct f as [| f']; [discriminate |]. cbn [gen] in M0. unfold gen_body in M0. destruct decl as [t d p kk].
    destruct t; cbn [declarator_names srt_type] in N, M0; try discriminate N.
    - split; [eapply lab_ident; exact M0 |]. unfold gen_identifier_decl in M0. ginv M0; injection M0 as <- <-; reflexivity.
    - split; [eapply lab_string; exact M0 |]. unfold gen_string_decl in M0. ginv M0; injection M0 as <- <-; reflexivity. }
  destruct X as [X ->]. pose proof (lab_depth _ _ _ _ _ X) as DX. apply bind_ok in H as (m & M1 & H). apply bind_ok in H as (y & M2 & H).
  destruct (negb _); [injection H as <- <-; split; [constructor | unfold file_scope in *; lia] |].
  destruct (Nat.eqb _ _).
  - apply bind_ok in H as (d & _ & H). injection H as <- <-. split; [| unfold file_scope in *; lia]. cbn [app]. apply (items_data _ _ _ [_] []); repeat constructor.
  - apply bind_ok in H as (i & M3 & H). apply bind_ok in H as ([c1 g1] & M4 & H). injection H as <- <-.
    assert (I : inside false (false, false) false i).
    { apply expr_inside. destruct rest as [| r0 rest]; [discriminate |]. cbn in M3. injection M3 as <-. now inversion R. }
    assert (A : lab false (false, false) g0 c1 g1) by (eapply gen_lab; [exact I | intros Q; discriminate Q | exact M4]).
    pose proof (lab_depth _ _ _ _ _ A) as DA. split; [| unfold file_scope in *; lia]. cbn [app]. rewrite <- (app_nil_r c1). apply (items_data _ _ _ c1 []); [| constructor].
    apply Forall_forall. intros x Ix. apply not_entry. now apply (lab_inner _ _ _ _ _ A).
Qed.
Lemma declarators_items k f td : forall E base ds ss E', init_declarators E td base ds ss E' ->
  forall st cs st', file_scope st -> append_list (gen f) ss st = Ok (cs, st') -> items k cs /\ file_scope st'.
Proof.
  intros E base ds ss E'.
  induction 1 as [E td base | E td base t p da rest n d0 d E1 syms ss E2 H H0 H1 H2 H3 H4 IH | E td base t p da ia cs0 rest n d0 d E1 syms i E2 ss E3 H H0 H1 H2 H3 H4 H5 IH];
    intros st cs st' S A; cbn [append_list] in A.
  - injection A as <- <-. split; [constructor | exact S].
  - apply bind_ok in A as ([c g] & M1 & A). apply bind_ok in A as ([c' g'] & M2 & A). injection A as <- <-.
    apply (init_decl_items k f n) in M1 as [K1 S1]; [| reflexivity | constructor | exact S]. apply IH in M2 as [K2 S2]; [| exact S1]. split; [now apply items_app | exact S2].
  - apply bind_ok in A as ([c g] & M1 & A). apply bind_ok in A as ([c' g'] & M2 & A). injection A as <- <-.
    apply (init_decl_items k f n) in M1 as [K1 S1]; [| reflexivity | constructor; [| constructor]; eapply initializer_everywhere; eassumption | exact S].
    apply IH in M2 as [K2 S2]; [| exact S1]. split; [now apply items_app | exact S2].
Qed.
Lemma string_items k f s st cs st' : string_decl s = true -> file_scope st -> gen f None s st = Ok (cs, st') -> items k cs /\ file_scope st'.
Proof.
  intros D S H. pose proof (string_decl_everywhere _ D) as W. apply string_shape in D as (id & str & n & m & O & ->).
  destruct f as [| f]; [discriminate |]. cbn [gen] in H. unfold gen_body in H. cbn [srt_type srt_children append_list] in H.
  apply bind_ok in H as ([c g] & M1 & H). cbn [bind] in H. injection H as <- <-. rewrite app_nil_r.
  eapply init_decl_items in M1; [exact M1 | reflexivity | | exact S].
  constructor; [| constructor]. intros around x OC.
  assert (I : everywhere sound_item (Srt SRT_INIT None SPNone [Srt SRT_SLITERAL_EXPR (Some (DTYPE_ARRAY DTYPE_CHAR m)) (SPStr str) []])).
  { eapply everywhere_child; [eapply everywhere_child; [exact W | now left] | right; now left]. }
  destruct (I _ _ OC) as (T1 & T2 & T3). split; [exact T1 |]. split; [exact T2 |]. unfold statement_nodes. intros Q. apply in_app_iff in Q as [Q | [Q | []]]; [exact (T3 Q) |].
  inversion OC as [| ? ? ? ? IN OC']; subst; [discriminate Q |]. cbn in IN. destruct IN as [<- | []].
  inversion OC' as [| ? ? ? ? IN']; subst; [discriminate Q | destruct IN'].
Qed.
Lemma item_items k f s E E' its cs0 : unit_items E its (s :: cs0) E' -> sound_calls k s -> (forall n, In n (item_names s) -> plain_name n) ->
  forall st cs st', file_scope st -> gen f None s st = Ok (cs, st') -> items k cs /\ file_scope st'.
Proof.
  intros U SC P st cs st' S H. inversion U as [| ? ? ? ? ? K U' | ? ? ? ? ? ? ? T F U' | ? ? ? ? ? ? ? T F U']; subst.
  - destruct K as [K | K]; [| eapply string_items; eassumption].
    destruct s as [t d p l]. destruct t; try discriminate K. destruct f as [| f]; [discriminate |]. cbn [gen] in H. unfold gen_body in H. cbn [srt_type] in H.
    unfold gen_tag_decl in H. apply bind_ok in H as (d' & _ & H). destruct d'; try discriminate H; ginv H; injection H as <- <-; (split; [constructor | exact S]).
  - split; [eapply function_items; eassumption |]. eapply function_chunk; eassumption.
  - destruct F as [? t p ts q l td specs base E1' D SP | ? t p ts q l tl ql ds cs1 td specs base E1' ss E2 D SP I];
      (destruct f as [| f]; [discriminate |]); cbn [gen] in H; unfold gen_body in H; cbn [srt_type srt_children append_list] in H.
    + injection H as <- <-. split; [constructor | exact S].
    + eapply declarators_items; eassumption.
Qed.
Lemma unit_itemised k f : forall E its ss E', unit_items E its ss E' -> Forall (sound_calls k) ss -> (forall n, In n (flat_map item_names ss) -> plain_name n) ->
  forall st cs st', file_scope st -> append_list (gen f) ss st = Ok (cs, st') -> items k cs.
Proof.
  intros E its ss. revert E its. induction ss as [| s ss IH]; intros E its E' U SC P st cs st' S A; cbn [append_list] in A.
  - injection A as <- <-. constructor.
  - apply bind_ok in A as ([c g] & M1 & A). apply bind_ok in A as ([c' g'] & M2 & A). injection A as <- <-. cbn [flat_map] in P |- *.
    apply (item_items k _ _ _ _ _ _ U (Forall_inv SC)) in M1 as [K1 S1]; [| intros n I; apply P, in_app_iff; now left | exact S].
    assert (U' : exists E1 its', unit_items E1 its' ss E') by (inversion U; eauto). destruct U' as (E1 & its' & U').
    apply items_app; [exact K1 |]. eapply IH; [exact U' | exact (Forall_inv_tail SC) | | exact S1 | exact M2]. intros n I. apply P, in_app_iff. now right.
Qed.
Theorem program_items k a s cs : resolve a = Ok s -> plain_names s -> immcgen s = Ok cs -> sound_calls k s -> items k cs.
Proof.
  intros R PN G SC. apply resolve_sound in R as (ss & E' & -> & U & ST).
  unfold immcgen in G. apply bind_ok in G as ([c g] & M & G). injection G as <-. cbn [gen] in M. unfold gen_body in M. cbn [srt_type stmt_node srt_children] in M.
  pose proof (user_dotless _ _ _ _ U PN) as UD.
  assert (IN : forall n, In n (flat_map item_names ss) -> In n (flat_map user_names ss) \/ In n (List.map (fun x => create_sliteral_label (fst x)) (string_decls ss))).
  { intros n I. rewrite (count_occ_In name_dec) in I |- *. rewrite (count_occ_In name_dec). rewrite names_split in I. lia. }
  assert (P : forall n, In n (flat_map item_names ss) -> plain_name n).
  { intros n I. destruct (IN n I) as [I' | I']; [now apply dotless_plain, UD |]. apply in_map_iff in I' as (x & <- & _). apply string_plain. }
  refine (unit_itemised k _ _ _ _ _ U _ P _ _ _ (eq_refl : file_scope new_immcgen) M).
  apply Forall_forall. intros x Ix. eapply sound_child; [| exact SC | exact Ix]. discriminate.
Qed.

(** * Register allocation *)
Definition alike (c c' : immc) : Prop := c' = c \/ exists al, alloc_immc al c = Ok c'.
Lemma alike_facts c c' : alike c c' -> moves c' = moves c /\ label_of c' = label_of c /\ target_of c' = target_of c /\ is_call c' = is_call c /\ (ordinary c -> ordinary c') /\ external c' = external c.
Proof.
  intros [-> | [al H]]; [splits; auto |]. destruct c as [t d f g | | |]; cbn [alloc_immc] in H; try (injection H as <-; splits; auto).
  apply bind_ok in H as (f' & Hf & H). apply bind_ok in H as (g' & Hg & H). apply bind_ok in H as (d' & Hd & H). injection H as <-.
  assert (A : forall o o', alloc_ope al o = Ok o' -> count_of o' = count_of o /\ (forall l, o' = Some (IMMC_OPERAND_LABEL l) <-> o = Some (IMMC_OPERAND_LABEL l))).
  { intros [[] |] o' E; cbn in E; try (injection E as <-; split; [reflexivity | intros l; split; congruence]); apply bind_ok in E as (q & _ & E); injection E as <-; (split; [reflexivity | intros l; split; discriminate]). }
  destruct (A _ _ Hf) as [F1 _], (A _ _ Hg) as [G1 _], (A _ _ Hd) as [_ D]. splits; auto.
  - unfold moves. destruct t; try reflexivity; now rewrite ?F1, ?G1.
  - assert (T : target_of (IMMC_INST IMMC_INST_JMP d' f' g') = target_of (IMMC_INST IMMC_INST_JMP d f g)); [| destruct t; try reflexivity; exact T].
    cbn. destruct d' as [[] |]; cbn in Hd |- *; destruct d as [[] |]; try reflexivity; try (destruct (D n) as [D1 D2]; specialize (D2 eq_refl) || specialize (D1 eq_refl); congruence).
Qed.
Lemma Forall2_split {A B} (R : A -> B -> Prop) : forall a b l, Forall2 R (a ++ b) l -> exists a' b', l = a' ++ b' /\ Forall2 R a a' /\ Forall2 R b b'.
Proof. induction a as [| x a IH]; intros b l H; [exists [], l; auto |]. inversion H as [| ? y ? l' R1 F]; subst. destruct (IH _ _ F) as (a' & b' & -> & F1 & F2). exists (y :: a'), b'. auto. Qed.
Lemma lv_alike k X x d cs d' : forall cs', Forall2 alike cs cs' -> lv k X x d cs d' -> lv k X x d cs' d'.
Proof.
  intros cs' F (A & B & C & D).
  assert (E : forall cs cs', Forall2 alike cs cs' -> grown cs' = grown cs /\ forall d, dlabels d cs' = dlabels d cs /\ djumps d cs' = djumps d cs /\ dcalls d cs' = dcalls d cs).
  { clear. induction 1 as [| c c' l l' S F (I1 & I2)]; [auto |]. destruct (alike_facts _ _ S) as (M & LB & T & CL & _). split; [rewrite !grown_cons; lia |].
    intros d. destruct (I2 (d + moves c)) as (J1 & J2 & J3). cbn. rewrite M, LB, T, CL, J1, J2, J3. auto. }
  destruct (E _ _ F) as (E1 & E2). destruct (E2 d) as (E3 & E4 & E5). unfold lv. rewrite E1, E3, E4, E5. splits; auto.
  clear - F D. induction F as [| c c' l l' S F IH]; constructor; inversion D; subst; [now apply (alike_facts _ _ S) | auto].
Qed.
Lemma alike_external l l' : Forall2 alike l l' -> Forall (fun c => external c = false) l -> Forall (fun c => external c = false) l'.
Proof. induction 1 as [| c c' l l' S F IH]; intros H; constructor; inversion H; subst; auto. destruct (alike_facts _ _ S) as (_ & _ & _ & _ & _ & ->). auto. Qed.
Lemma alike_same c c' : alike c c' -> (forall al, alloc_immc al c = Ok c) -> c' = c.
Proof. intros [-> | [al H]] E; [reflexivity |]. rewrite E in H. congruence. Qed.
Lemma items_alike k l : items k l -> forall l', Forall2 alike l l' -> items k l'.
Proof.
  induction 1 as [| fn rest (v & n & s & i & body & -> & LV & EX) _ IH | v n ds rest D _ IH]; intros l' F.
  - inversion F. constructor.
  - apply Forall2_split in F as (fn' & rest' & -> & F1 & F2). constructor; [| auto].
    inversion F1 as [| ? c1 ? l1 S1 G1]; subst. inversion G1 as [| ? c2 ? l2 S2 G2]; subst. apply Forall2_split in G2 as (body' & z & -> & H1 & H2). inversion H2 as [| ? c3 ? l3 S3 H3]; subst. inversion H3; subst.
    apply alike_same in S1; [| reflexivity]. apply alike_same in S2; [| reflexivity]. apply alike_same in S3; [| reflexivity]. subst. exists v, n, s, i, body'. splits; [reflexivity | eapply lv_alike; eassumption | eapply alike_external; eassumption].
  - inversion F as [| ? c1 ? l1 S1 G1]; subst. apply Forall2_split in G1 as (ds' & rest' & -> & H1 & H2). apply alike_same in S1; [| reflexivity]. subst. constructor; [eapply alike_external; eassumption | auto].
Qed.
Lemma allocated_alike al : forall l l', gen_allocated_immcs al l = Ok l' -> Forall2 alike l l'.
Proof.
  induction l as [| c l IH]; intros l' H; cbn [gen_allocated_immcs] in H; [injection H as <-; constructor |]. apply bind_ok in H as (c' & Hc & H). apply bind_ok in H as (r & Hr & H). injection H as <-. constructor; [right; eauto | auto].
Qed.
Lemma function_alike n fn off seqs fn' seqs' : allocate_function n fn off seqs = Ok (fn', seqs') -> Forall2 alike fn fn'.
Proof.
  unfold allocate_function. intros H. apply bind_ok in H as (g & _ & H). apply bind_ok in H as (g' & _ & H). apply bind_ok in H as (lv & _ & H). apply bind_ok in H as (al & _ & H). apply bind_ok in H as (cs & Hc & H). apply bind_ok in H as (sq & _ & H). injection H as <- <-. eapply allocated_alike, Hc.
Qed.
Lemma loop_alike n : forall f l off seqs l' seqs', allocate_loop_ext f n l off seqs = Ok (l', seqs') -> Forall2 alike l l'.
Proof.
  assert (R : forall c, alike c c) by (now left).
  induction f as [| f IH]; intros l off seqs l' seqs' H; destruct l as [| c l]; cbn [allocate_loop_ext] in H; try discriminate H; try (injection H as <- <-; constructor).
  destruct (span_external l) as [a rest] eqn:Sp. destruct (span_ok _ _ _ Sp) as (-> & _ & _). destruct c as [| | | t v m]; try discriminate H. apply bind_ok in H as ((cs, s1) & Hc & H). apply bind_ok in H as ((cs', s2) & Hl & H). injection H as <- <-.
  rewrite app_comm_cons. apply Forall2_app; [| eapply IH, Hl]. destruct t; [eapply function_alike, Hc | injection Hc as <- _; apply Forall2_refl, R..].
Qed.
Lemma regs_alike n l l' seqs : allocate_regs n l = Ok (l', seqs) -> Forall2 alike l l'.
Proof. unfold allocate_regs. intros H. eapply loop_alike, H. Qed.
