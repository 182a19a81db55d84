(** Proofs for C29: declarations at file scope, distinct names, the whole program *)
From Coq Require Import Permutation.
From Verif Require AsmSpec AsmProofs TypeProofs.
From Verif Require Import Base AstModel DtypeModel SymtabModel SrtModel ResolverModel ImmcModel ImmcgenModel TypeSpec ElabSpec ElabProofs ElabProofs2 ElabProofs5 ResolverSpec ResolverProofs LabelSpec LabelProofs LabelProofs2.
Local Open Scope Z_scope.
#[local] Arguments create_label_name : simpl never.
#[local] Arguments create_sliteral_label : simpl never.

(** * Declared names stay declared *)
Definition keeps (s s' : scope) : Prop := forall n y, assoc n (sc_map s) = Some y -> assoc n (sc_map s') = Some y.
Definition grows (E E' : env) : Prop := Forall2 keeps (e_syms E) (e_syms E').
Lemma keeps_refl s : keeps s s.
Proof. intros n y H. exact H. Qed.
Lemma all_keep_refl t : Forall2 keeps t t.
Proof. induction t; constructor; auto using keeps_refl. Qed.
Lemma all_keep_trans : forall a b c, Forall2 keeps a b -> Forall2 keeps b c -> Forall2 keeps a c.
Proof.
  intros a b c H. revert c. induction H as [| x y a b A B IH]; intros c C; inversion C; subst; constructor; auto.
  intros n z Z. auto.
Qed.
Lemma grows_refl E : grows E E.
Proof. apply all_keep_refl. Qed.
Lemma grows_trans A B C : grows A B -> grows B C -> grows A C.
Proof. apply all_keep_trans. Qed.
Lemma grows_with_tags A B t : grows A B -> grows A (with_tags B t).
Proof. intros H. exact H. Qed.
Lemma grows_with_string A s : grows A (with_string A s).
Proof. apply all_keep_refl. Qed.
Lemma add_keeps sc n y nb : assoc n (sc_map sc) = None -> keeps sc (mkscope ((n, y) :: sc_map sc) nb).
Proof. intros N m z H. cbn. destruct (name_eqb m n) eqn:E; [| exact H]. apply TypeProofs.name_eqb_eq in E. subst. congruence. Qed.
Lemma can_define t n : sym_can_define t n = Ok true -> exists sc r, t = sc :: r /\ assoc n (sc_map sc) = None.
Proof. destruct t as [| sc r]; cbn; [discriminate |]. intros H. exists sc, r. split; [reflexivity |]. destruct (assoc n (sc_map sc)); [discriminate | reflexivity]. Qed.
Lemma define_label_keeps t n d t' : sym_define_label t n d = Ok t' -> Forall2 keeps t t'.
Proof.
  unfold sym_define_label. destruct t as [| sc r]; cbn; [discriminate |]. intros H. injection H as <-. destruct (assoc n (sc_map sc)) eqn:A; [apply all_keep_refl |].
  constructor; [now apply add_keeps | apply all_keep_refl].
Qed.
Lemma define_integer_keeps t n d i t' : sym_define_integer t n d i = Ok t' -> Forall2 keeps t t'.
Proof.
  unfold sym_define_integer. destruct t as [| sc r]; cbn; [discriminate |]. intros H. injection H as <-. destruct (assoc n (sc_map sc)) eqn:A; [apply all_keep_refl |].
  constructor; [now apply add_keeps | apply all_keep_refl].
Qed.
Lemma define_memory_keeps t n d t' : sym_define_memory t n d = Ok t' -> Forall2 keeps t t'.
Proof.
  unfold sym_define_memory. destruct t as [| sc r]; cbn; [discriminate |]. intros H. destruct (assoc n (sc_map sc)) eqn:A; [injection H as <-; apply all_keep_refl |].
  injection H as <-. constructor; [now apply add_keeps | apply all_keep_refl].
Qed.
Lemma declares_keeps t n d t' : declares t n d t' -> Forall2 keeps t t'.
Proof. unfold declares. destruct (Nat.eqb _ _); [apply define_label_keeps |]. intros [[_ H] | [_ H]]; [now apply define_memory_keeps in H | now apply define_label_keeps in H]. Qed.
Lemma grows_with_syms A B t : grows A B -> Forall2 keeps (e_syms B) t -> grows A (with_syms B t).
Proof. intros H K. exact (all_keep_trans _ _ _ H K). Qed.
Lemma grows_scope E E1 E' : grows (entered E) E1 -> left_scope E1 E' -> grows E E'.
Proof.
  intros H (X & _ & _). unfold grows, entered in H. cbn in H. unfold sym_enter in H. inversion H as [| a b r r' K R Q1 Q2]; subst. unfold grows.
  rewrite <- Q2 in X. destruct r' as [| o r'].
  - inversion R as [Q3 |]; subst. cbn in X. injection X as <-. constructor.
  - inversion R as [| a' b' ? ? K' R' Q3]; subst. cbn in X. injection X as <-. constructor; [exact K' | exact R'].
Qed.

Scheme elab_min := Minimality for elab Sort Prop
  with elab_arguments_min := Minimality for elab_arguments Sort Prop
  with type_name_min := Minimality for type_name Sort Prop
  with specifiers_min := Minimality for specifiers Sort Prop
  with struct_decls_min := Minimality for struct_decls Sort Prop
  with struct_declarators_min := Minimality for struct_declarators Sort Prop
  with enumerators_min := Minimality for enumerators Sort Prop
  with declarator_min := Minimality for declarator Sort Prop
  with parameters_min := Minimality for parameters Sort Prop
  with parameter_list_min := Minimality for parameter_list Sort Prop.
Combined Scheme elab_all from elab_min, elab_arguments_min, type_name_min, specifiers_min, struct_decls_min, struct_declarators_min, enumerators_min, declarator_min, parameters_min, parameter_list_min.

Theorem elab_grows :
  (forall E a s E', elab E a s E' -> grows E E') /\ (forall E ps l ss E', elab_arguments E ps l ss E' -> grows E E') /\
  (forall E a d E', type_name E a d E' -> grows E E') /\ (forall E l d E', specifiers E l d E' -> grows E E') /\
  (forall E l ms E', struct_decls E l ms E' -> grows E E') /\ (forall E d l ms E', struct_declarators E d l ms E' -> grows E E') /\
  (forall E v l vs E', enumerators E v l vs E' -> grows E E') /\ (forall E td o b a n d E', declarator E td o b a n d E' -> grows E E') /\
  (forall E l ps E', parameters E l ps E' -> grows E E') /\ (forall E l ps E', parameter_list E l ps E' -> grows E E').
Proof.
  apply elab_all; intros; try (eauto using grows_refl, grows_trans, grows_with_tags, grows_with_string; fail).
  - eapply grows_trans; [| eassumption]. apply grows_with_syms; [apply grows_refl | eauto using define_integer_keeps].
  - eapply grows_trans; [| eassumption]. eapply grows_trans; [eassumption |]. apply grows_with_syms; [apply grows_refl | eauto using define_integer_keeps].
Qed.
Lemma expr_grows E a s E' : elab E a s E' -> grows E E'.
Proof. apply elab_grows. Qed.
Lemma specifiers_grows E l d E' : specifiers E l d E' -> grows E E'.
Proof. apply elab_grows. Qed.
Lemma declarator_grows E td o b a n d E' : declarator E td o b a n d E' -> grows E E'.
Proof. apply elab_grows. Qed.
Lemma initializer_grows : (forall E d a s E', initializer E d a s E' -> grows E E') /\ (forall all E es items ss rest E', fill all E es items ss rest E' -> grows E E').
Proof. apply initializer_mutind; intros; eauto using grows_refl, grows_trans, expr_grows. Qed.
Lemma declarators_grow E td base ds ss E' : init_declarators E td base ds ss E' -> grows E E'.
Proof.
  induction 1; [apply grows_refl | |]; (eapply grows_trans; [eapply declarator_grows; eassumption |]).
  - eapply grows_trans; [| eassumption]. apply grows_with_syms; [apply grows_refl | eauto using declares_keeps].
  - eapply grows_trans; [| eassumption]. eapply grows_trans; [| eapply (proj1 initializer_grows); eassumption]. apply grows_with_syms; [apply grows_refl | eauto using declares_keeps].
Qed.
Lemma declaration_grows E a s E' : declaration_rule E a s E' -> grows E E'.
Proof. destruct 1; eauto using grows_trans, specifiers_grows, declarators_grow. Qed.
Lemma stmt_grows : forall C, (forall E a s E', stmt C E a s E' -> grows E E') /\ (forall E items cs E', block C E items cs E' -> grows E E').
Proof.
  intros C. apply (stmt_mutind (fun C E a s E' => grows E E') (fun C E items cs E' => grows E E')); clear C; intros; eauto using grows_refl, grows_trans, expr_grows, grows_scope, declaration_grows.
  all: try (eapply grows_scope; [| eassumption]; eauto 6 using grows_trans, declaration_grows).
Qed.
Lemma parameters_keep : forall ps t t', declare_parameters ps t t' -> Forall2 keeps t t'.
Proof.
  induction ps as [| [[n |] d] ps IH]; intros t t' H; cbn in H; [subst; apply all_keep_refl | | destruct H].
  destruct H as (t1 & A & B). eauto using all_keep_trans, define_memory_keeps.
Qed.
Lemma nbytes_keep t n t' : sym_set_nbytes t n = Ok t' -> Forall2 keeps t t'.
Proof. destruct t as [| s r]; cbn; [discriminate |]. intros H. injection H as <-. constructor; [intros m y Y; exact Y | apply all_keep_refl]. Qed.
(** a name once declared at file scope *)
Definition declared (E : env) (n : name) : Prop := exists sc, e_syms E = [sc] /\ assoc n (sc_map sc) <> None.
Definition one_scope (E : env) : Prop := length (e_syms E) = 1%nat.
Lemma grows_declared E E' n : grows E E' -> declared E n -> declared E' n.
Proof.
  intros G (sc & S & A). unfold grows in G. rewrite S in G. inversion G as [| x sc' r r' K R]; subst. inversion R; subst. exists sc'. split; [congruence |].
  destruct (assoc n (sc_map sc)) eqn:F; [| contradiction]. rewrite (K _ _ F). discriminate.
Qed.
Lemma grows_one E E' : grows E E' -> one_scope E -> one_scope E'.
Proof. unfold grows, one_scope. intros G <-. clear - G. induction G; cbn; congruence. Qed.
Lemma undeclared_not E n : undeclared (e_syms E) n -> declared E n -> False.
Proof. intros U (sc & S & A). apply can_define in U as (sc' & r & T & N). rewrite S in T. injection T as <- <-. contradiction. Qed.
Lemma define_label_declared E n d t : one_scope E -> sym_define_label (e_syms E) n d = Ok t -> declared (with_syms E t) n.
Proof.
  unfold one_scope, declared, sym_define_label. destruct (e_syms E) as [| sc [| sc' r]]; cbn; try discriminate. intros _ H. injection H as <-.
  destruct (assoc n (sc_map sc)) eqn:A; eexists; (split; [reflexivity |]); [congruence |]. cbn. rewrite (proj2 (TypeProofs.name_eqb_eq n n) eq_refl). discriminate.
Qed.
Lemma function_names E a s E' : function_definition E a s E' -> one_scope E ->
  grows E E' /\ exists n, item_names s = [n] /\ ~ declared E n /\ declared E' n.
Proof.
  intros F O. destruct F as [E t p ts q specs da tb qb items cs0 base E1 n ps ret E2 syms1 syms2 syms3 body E3 syms4 E4 D0 D1 D2 D3 D4 D5 D6 B D7 D8].
  assert (G2 : grows E E2) by eauto using grows_trans, specifiers_grows, declarator_grows.
  assert (G3 : grows (with_syms E2 syms1) E4).
  { eapply grows_scope; [| exact D8]. apply grows_with_syms; [| now apply nbytes_keep in D7].
    eapply grows_trans; [| exact (proj2 (stmt_grows _) _ _ _ _ B)]. unfold grows. cbn [e_syms entered with_syms].
    eapply all_keep_trans; [apply nbytes_keep in D5; exact D5 | now apply parameters_keep in D6]. }
  split.
  - eapply grows_trans; [exact G2 |]. eapply grows_trans; [| exact G3]. apply grows_with_syms; [apply grows_refl | eauto using define_label_keeps].
  - exists n. split; [reflexivity |]. split.
    + intros D. eapply undeclared_not; [exact D3 |]. eapply grows_declared; eassumption.
    + eapply grows_declared; [exact G3 |]. eapply define_label_declared; [eapply grows_one; eassumption | exact D4].
Qed.
Lemma declares_one E n d t : one_scope E -> declares (e_syms E) n d t -> declared (with_syms E t) n.
Proof. intros O H. unfold declares in H. unfold one_scope in O. rewrite O in H. now apply define_label_declared with d. Qed.
Lemma declarators_names E td base ds ss E' : init_declarators E td base ds ss E' -> one_scope E ->
  NoDup (flat_map declarator_names ss) /\ (forall n, In n (flat_map declarator_names ss) -> ~ declared E n /\ declared E' n).
Proof.
  induction 1 as [E td base | E td base t p da rest n d0 d E1 syms ss E2 H H0 H1 H2 H3 H4 IH | E td base t p da ia cs rest n d0 d E1 syms i E2 ss E3 H H0 H1 H2 H3 H4 H5 IH]; intros O.
  - split; [constructor | intros n []].
  - apply declarator_grows in H. pose proof (grows_one _ _ H O) as O1. pose proof (declares_one _ _ _ _ O1 H3) as D.
    assert (G : grows E1 (with_syms E1 syms)) by (apply grows_with_syms; [apply grows_refl | eauto using declares_keeps]).
    destruct (IH (grows_one _ _ G O1)) as [N A]. apply declarators_grow in H4. cbn [flat_map declarator_names app]. split.
    + constructor; [| exact N]. intros I. now apply A in I.
    + intros m [<- | I]; [split |].
      * intros D'. eapply undeclared_not; [exact H1 |]. eapply grows_declared; eassumption.
      * eapply grows_declared; eassumption.
      * apply A in I as [I1 I2]. split; [| exact I2]. intros D'. apply I1. eauto using grows_declared.
  - apply declarator_grows in H. pose proof (grows_one _ _ H O) as O1. pose proof (declares_one _ _ _ _ O1 H3) as D.
    apply (proj1 initializer_grows) in H4.
    assert (G : grows E1 (with_syms E1 syms)) by (apply grows_with_syms; [apply grows_refl | eauto using declares_keeps]).
    destruct (IH (grows_one _ _ H4 (grows_one _ _ G O1))) as [N A]. apply declarators_grow in H5. cbn [flat_map declarator_names app]. split.
    + constructor; [| exact N]. intros I. apply A in I as [I _]. apply I. eauto using grows_declared.
    + intros m [<- | I]; [split |].
      * intros D'. eapply undeclared_not; [exact H1 |]. eapply grows_declared; eassumption.
      * eauto using grows_declared.
      * apply A in I as [I1 I2]. split; [| exact I2]. intros D'. apply I1. eauto 6 using grows_declared.
Qed.
Lemma declaration_names E a s E' : declaration_rule E a s E' -> one_scope E ->
  NoDup (item_names s) /\ (forall n, In n (item_names s) -> ~ declared E n /\ declared E' n).
Proof.
  destruct 1 as [E t p ts q l td specs base E1 D S | E t p ts q l tl ql ds cs td specs base E1 ss E2 D S I]; intros O; cbn [item_names].
  - split; [constructor | intros n []].
  - apply specifiers_grows in S. destruct (declarators_names _ _ _ _ _ _ I (grows_one _ _ S O)) as [N A]. split; [exact N |].
    intros n M. apply A in M as [M1 M2]. split; [| exact M2]. eauto using grows_declared.
Qed.
(** the names the programmer wrote: not those of the strings *)
Definition user_names (s : srt) : list name := if string_decl s then [] else item_names s.
Lemma no_string E td base ds ss E' : init_declarators E td base ds ss E' -> string_decl (Srt SRT_DECL_LIST None SPNone ss) = false.
Proof. destruct 1; reflexivity. Qed.
Lemma unit_names E items cs E' : unit_items E items cs E' -> one_scope E ->
  NoDup (flat_map user_names cs) /\ (forall n, In n (flat_map user_names cs) -> ~ declared E n).
Proof.
  induction 1 as [E | E items s cs E' H H0 IH | E a items s E1 cs E' H H0 H1 IH | E a items s E1 cs E' H H0 H1 IH]; intros O.
  - split; [constructor | intros n []].
  - cbn [flat_map]. assert (X : user_names s = []).
    { unfold user_names. destruct (string_decl s) eqn:S; [reflexivity |]. destruct H as [H | H]; [| discriminate].
      destruct s as [t d p l]. destruct t; try discriminate H. reflexivity. }
    rewrite X. now apply IH.
  - apply function_names in H0 as (G & n & X & D & D'); [| assumption]. destruct (IH (grows_one _ _ G O)) as [N A]. cbn [flat_map].
    assert (Y : user_names s = [] \/ user_names s = [n]) by (unfold user_names; destruct (string_decl s); auto). destruct Y as [-> | ->]; cbn [app].
    + split; [exact N |]. intros m M. apply A in M. eauto using grows_declared.
    + split; [constructor; [intros I; now apply A in I | exact N] |]. intros m [<- | M]; [exact D |]. apply A in M. eauto using grows_declared.
  - pose proof (declaration_grows _ _ _ _ H0) as G. apply declaration_names in H0 as [N0 A0]; [| assumption]. destruct (IH (grows_one _ _ G O)) as [N A]. cbn [flat_map].
    assert (Y : user_names s = [] \/ user_names s = item_names s) by (unfold user_names; destruct (string_decl s); auto). destruct Y as [-> | ->]; cbn [app].
    + split; [exact N |]. intros m M. apply A in M. eauto using grows_declared.
    + split.
      * clear - N0 N A A0. induction (item_names s) as [| x l IH]; [exact N |]. inversion N0; subst. cbn. constructor; [| apply IH; auto; intros n I; apply A0; now right].
        intros I. apply in_app_iff in I as [I | I]; [contradiction |]. apply A in I. apply I, A0. now left.
      * intros m M. apply in_app_iff in M as [M | M]; [now apply A0 in M |]. apply A in M. eauto using grows_declared.
Qed.

(** * Declarations at file scope *)
Lemma init_decl_chunk f n decl rest st cs st' : declarator_names (Srt SRT_INIT_DECL None SPNone (decl :: rest)) = [n] -> plain_name n ->
  Forall (everywhere sound_node) rest -> file_scope st -> gen f None (Srt SRT_INIT_DECL None SPNone (decl :: rest)) st = Ok (cs, st') ->
  ((chunk (g_label st) (g_label st') [n] cs)) /\ file_scope st'.
Proof.
  intros N P R S H. destruct f as [| f]; [discriminate |]. cbn [gen] in H. unfold gen_body in H. cbn [srt_type] in H. unfold gen_init_decl in H.
  assert (GL : is_global st = true) by (unfold is_global; rewrite S; reflexivity). rewrite GL in H. unfold gen_global_init_decl in H.
  apply bind_ok in H as ([c0 g0] & M0 & H). unfold append_child in M0. cbn [gchild nth_error srt_children deref bind] in M0, H.
  assert (X : lab false (false, false) st c0 g0 /\ c0 = []).
  { destruct f as [| f']; [discriminate |]. cbn [gen] in M0. unfold gen_body in M0. destruct decl as [t d p k].
    destruct t; cbn [declarator_names srt_type] in N, M0; try discriminate N.
    - split; [eapply lab_ident; exact M0 |]. unfold gen_identifier_decl in M0. ginv M0; injection M0 as <- <-; reflexivity.
    - split; [eapply lab_string; exact M0 |]. unfold gen_string_decl in M0. ginv M0; injection M0 as <- <-; reflexivity. }
  destruct X as [X ->]. apply bind_ok in H as (m & M1 & H).
  assert (m = n).
  { destruct decl as [t d p k]. destruct t; cbn [declarator_names srt_type] in N; try discriminate N; destruct p; try discriminate N; cbn in M1; injection M1 as <-; injection N as <-; reflexivity. }
  subst m. apply bind_ok in H as (y & M2 & H).
  pose proof (labx_lab (fun _ => False) _ _ _ _ _ _ _ X eq_refl eq_refl (exits_none st)) as LX. pose proof (lab_depth _ _ _ _ _ X) as DX.
  assert (E0 : forall lo hi, lo <= hi -> chunk lo hi [n] []).
  { intros lo hi LE. split; [exact LE | | | constructor]. { intros i. rewrite occ_nil. lia. } { intros q _. rewrite occ_nil. lia. } }
  destruct (negb _); [injection H as <- <-; split; [apply E0, X | unfold file_scope in *; lia] |].
  destruct (Nat.eqb _ _).
  - apply bind_ok in H as (d & _ & H). injection H as <- <-. split; [| unfold file_scope in *; lia]. cbn [app]. apply chunk_entry; [assumption | now right |].
    destruct LX as [L1 _ _ _ _]. split; [exact L1 | | | | ].
    + intros i. cbn. lia.
    + reflexivity.
    + intros x [<- | []] (? & ? & [? | ?]); discriminate.
    + intros x t [<- | []] (? & ? & ? & _ & ?); discriminate.
  - apply bind_ok in H as (i & M3 & H). apply bind_ok in H as ([c1 g1] & M4 & H). injection H as <- <-.
    assert (I : inside false (false, false) false i).
    { apply expr_inside. destruct rest as [| r0 rest]; [discriminate |]. cbn in M3. injection M3 as <-. now inversion R. }
    assert (A : lab false (false, false) g0 c1 g1) by (eapply gen_lab; [exact I | intros Q; discriminate Q | exact M4]).
    pose proof (labx_lab (fun _ => False) _ _ _ _ _ _ _ A eq_refl eq_refl (exits_none _)) as LA. pose proof (lab_depth _ _ _ _ _ A) as DA.
    split; [| unfold file_scope in *; lia]. cbn [app]. apply chunk_entry; [assumption | now right |].
    change c1 with ([] ++ c1). eapply labx_app; eassumption.
Qed.
Lemma declarators_chunk f td : forall E base ds ss E', init_declarators E td base ds ss E' -> (forall n, In n (flat_map declarator_names ss) -> plain_name n) ->
  forall st cs st', file_scope st -> append_list (gen f) ss st = Ok (cs, st') ->
  chunk (g_label st) (g_label st') (flat_map declarator_names ss) cs /\ file_scope st'.
Proof.
  intros E base ds ss E'.
  induction 1 as [E td base | E td base t p da rest n d0 d E1 syms ss E2 H H0 H1 H2 H3 H4 IH | E td base t p da ia cs0 rest n d0 d E1 syms i E2 ss E3 H H0 H1 H2 H3 H4 H5 IH];
    intros P st cs st' S A; cbn [append_list] in A.
  - injection A as <- <-. split; [apply chunk_nil | exact S].
  - apply bind_ok in A as ([c g] & M1 & A). apply bind_ok in A as ([c' g'] & M2 & A). injection A as <- <-. cbn [flat_map declarator_names app] in P |- *.
    apply (init_decl_chunk f n) in M1 as [K1 S1]; [| reflexivity | apply P; now left | constructor | exact S].
    apply IH in M2 as [K2 S2]; [| intros m I; apply P; now right | exact S1].
    split; [| exact S2]. exact (chunk_app _ _ _ [n] _ _ _ K1 K2).
  - apply bind_ok in A as ([c g] & M1 & A). apply bind_ok in A as ([c' g'] & M2 & A). injection A as <- <-. cbn [flat_map declarator_names app] in P |- *.
    apply (init_decl_chunk f n) in M1 as [K1 S1]; [| reflexivity | apply P; now left | constructor; [| constructor]; eapply initializer_everywhere; eassumption | exact S].
    apply IH in M2 as [K2 S2]; [| intros m I; apply P; now right | exact S1].
    split; [| exact S2]. exact (chunk_app _ _ _ [n] _ _ _ K1 K2).
Qed.
Lemma string_shape s : string_decl s = true -> exists id str n m, string_of s = Some (id, str) /\
  s = Srt SRT_DECL_LIST None SPNone [Srt SRT_INIT_DECL None SPNone [Srt SRT_STR_DECL (Some (DTYPE_ARRAY DTYPE_CHAR n)) (SPStrId id) [];
       Srt SRT_INIT None SPNone [Srt SRT_SLITERAL_EXPR (Some (DTYPE_ARRAY DTYPE_CHAR m)) (SPStr str) []]]].
Proof.
  unfold string_decl, string_of. intros H.
  repeat match type of H with
  | context [match ?x with _ => _ end] => is_var x; destruct x; try discriminate H
  end.
  destruct (_ && _) eqn:E in H; [| discriminate]. eexists _, _, _, _. rewrite E. split; reflexivity.
Qed.
Lemma string_chunk f s st cs st' : string_decl s = true -> (forall n, In n (item_names s) -> plain_name n) ->
  file_scope st -> gen f None s st = Ok (cs, st') -> chunk (g_label st) (g_label st') (item_names s) cs /\ file_scope st'.
Proof.
  intros D P S H. pose proof (string_decl_everywhere _ D) as W. apply string_shape in D as (id & str & n & m & O & ->).
  destruct f as [| f]; [discriminate |]. cbn [gen] in H. unfold gen_body in H. cbn [srt_type srt_children append_list] in H.
  apply bind_ok in H as ([c g] & M1 & H). cbn [bind] in H. injection H as <- <-. rewrite app_nil_r. cbn [item_names flat_map declarator_names app] in P |- *.
  eapply init_decl_chunk in M1; [exact M1 | reflexivity | apply P; now left | | exact S].
  constructor; [| constructor]. intros around x OC.
  assert (I : everywhere sound_item (Srt SRT_INIT None SPNone [Srt SRT_SLITERAL_EXPR (Some (DTYPE_ARRAY DTYPE_CHAR m)) (SPStr str) []])).
  { eapply everywhere_child; [eapply everywhere_child; [exact W | now left] | right; now left]. }
  destruct (I _ _ OC) as (T1 & T2 & T3). split; [exact T1 |]. split; [exact T2 |]. unfold statement_nodes. intros Q. apply in_app_iff in Q as [Q | [Q | []]]; [exact (T3 Q) |].
  inversion OC as [| ? ? ? ? IN OC']; subst; [discriminate Q |]. cbn in IN. destruct IN as [<- | []].
  inversion OC' as [| ? ? ? ? IN']; subst; [discriminate Q | destruct IN'].
Qed.
Lemma item_chunk f s E E' items cs0 : unit_items E items (s :: cs0) E' -> (forall n, In n (item_names s) -> plain_name n) ->
  forall st cs st', file_scope st -> gen f None s st = Ok (cs, st') -> chunk (g_label st) (g_label st') (item_names s) cs /\ file_scope st'.
Proof.
  intros U P st cs st' S H. inversion U as [| ? ? ? ? ? K U' | ? ? ? ? ? ? ? T F U' | ? ? ? ? ? ? ? T F U']; subst.
  - destruct K as [K | K]; [| eapply string_chunk; eassumption].
    destruct s as [t d p l]. destruct t; try discriminate K. cbn [item_names] in *. destruct f as [| f]; [discriminate |]. cbn [gen] in H. unfold gen_body in H. cbn [srt_type] in H.
    unfold gen_tag_decl in H. apply bind_ok in H as (d' & _ & H). destruct d'; try discriminate H; ginv H; injection H as <- <-; (split; [apply chunk_nil | exact S]).
  - eapply function_chunk; eassumption.
  - destruct F as [? t p ts q l td specs base E1' D SP | ? t p ts q l tl ql ds cs1 td specs base E1' ss E2 D SP I];
      (destruct f as [| f]; [discriminate |]); cbn [gen] in H; unfold gen_body in H; cbn [srt_type srt_children append_list] in H.
    + injection H as <- <-. split; [apply chunk_nil | exact S].
    + eapply declarators_chunk; eassumption.
Qed.
Lemma unit_chunk f : forall E items ss E', unit_items E items ss E' -> (forall n, In n (flat_map item_names ss) -> plain_name n) ->
  forall st cs st', file_scope st -> append_list (gen f) ss st = Ok (cs, st') -> chunk (g_label st) (g_label st') (flat_map item_names ss) cs.
Proof.
  intros E items ss. revert E items. induction ss as [| s ss IH]; intros E items E' U P st cs st' S A; cbn [append_list] in A.
  - injection A as <- <-. apply chunk_nil.
  - apply bind_ok in A as ([c g] & M1 & A). apply bind_ok in A as ([c' g'] & M2 & A). injection A as <- <-. cbn [flat_map] in P |- *.
    apply (item_chunk _ _ _ _ _ _ U) in M1 as [K1 S1]; [| intros n I; apply P, in_app_iff; now left | exact S].
    assert (U' : exists E1 items', unit_items E1 items' ss E') by (inversion U; eauto). destruct U' as (E1 & items' & U').
    eapply chunk_app; [exact K1 |]. eapply IH; [exact U' | | exact S1 | exact M2]. intros n I. apply P, in_app_iff. now right.
Qed.

(** * The program *)
Definition dotless (n : name) : Prop := forall c r, n = c :: r -> c <> 46.
Lemma dotless_plain n : dotless n -> plain_name n.
Proof. intros D i ->. now apply (D 46 (76 :: print_signed i)). Qed.
Lemma string_plain i : plain_name (create_sliteral_label i).
Proof. intros j H. discriminate H. Qed.
Lemma string_not_dotless i : ~ dotless (create_sliteral_label i).
Proof. intros D. now apply (D 46 (83 :: 76 :: print_signed i)). Qed.
Lemma string_inj i j : create_sliteral_label i = create_sliteral_label j -> i = j.
Proof.
  unfold create_sliteral_label. intros H. apply app_inv_head in H. assert (E : AsmSpec.read_number (print_signed i) = AsmSpec.read_number (print_signed j)) by now rewrite H.
  rewrite !AsmProofs.read_number_signed in E. congruence.
Qed.
Lemma declarators_file E td base ds ss E' : init_declarators E td base ds ss E' -> forall n, In n (flat_map declarator_names ss) ->
  In n (flat_map (fun x => match x with Srt _ _ _ (d :: _) => declared_name d | _ => [] end) ss).
Proof.
  induction 1 as [| E td base t p da rest n d0 d E1 syms ss E2 H H0 H1 H2 H3 H4 IH | E td base t p da ia cs0 rest n d0 d E1 syms i E2 ss E3 H H0 H1 H2 H3 H4 H5 IH]; intros m I; [destruct I | |];
    cbn [flat_map declarator_names declared_name app] in I |- *; (destruct I as [<- | I]; [now left | right; now apply IH]).
Qed.
Lemma user_file E items ss E' : unit_items E items ss E' -> forall n, In n (flat_map user_names ss) -> In n (file_names (stmt_node SRT_TRAS_UNIT ss)).
Proof.
  unfold file_names. cbn [srt_children stmt_node].
  induction 1 as [E | E items s cs E' H H0 IH | E a items s E1 cs E' H H0 H1 IH | E a items s E1 cs E' H H0 H1 IH]; intros n I; [destruct I | ..];
    cbn [flat_map] in I |- *; rewrite in_app_iff; (apply in_app_iff in I as [I | I]; [left | right; now apply IH]); unfold user_names in I.
  - destruct (string_decl s) eqn:S; [destruct I |]. destruct H as [H | H]; [| discriminate]. destruct s as [t d p l]. destruct t; try discriminate H. destruct I.
  - destruct (string_decl s); [destruct I |]. destruct H0. cbn [item_names] in I. exact I.
  - destruct (string_decl s); [destruct I |]. destruct H0; cbn [item_names] in I; [destruct I |]. eapply declarators_file; eassumption.
Qed.
Lemma user_dotless E items ss E' : unit_items E items ss E' -> plain_names (stmt_node SRT_TRAS_UNIT ss) -> forall n, In n (flat_map user_names ss) -> dotless n.
Proof. intros U PN n I c r -> ->. exact (PN _ r (user_file _ _ _ _ U _ I) eq_refl). Qed.
Lemma names_split n : forall ss, (count_occ name_dec (flat_map item_names ss) n =
  count_occ name_dec (flat_map user_names ss) n + count_occ name_dec (List.map (fun x => create_sliteral_label (fst x)) (string_decls ss)) n)%nat.
Proof.
  induction ss as [| s ss IH]; [reflexivity |]. unfold string_decls. cbn [flat_map]. fold (string_decls ss). rewrite map_app, !count_occ_app, IH.
  unfold user_names at 2. destruct (string_decl s) eqn:S.
  - apply string_shape in S as (id & str & k & m & O & E). rewrite O. subst s. cbn [item_names flat_map declarator_names app List.map fst]. cbn. lia.
  - unfold string_decl in S. destruct (string_of s); [discriminate |]. cbn. lia.
Qed.
Lemma numbered_from : forall l i x, In x (numbered i l) -> i <= fst x.
Proof. induction l as [| s l IH]; intros i x I; [destruct I |]. destruct I as [<- | I]; cbn; [lia |]. apply IH in I. lia. Qed.
Lemma numbered_distinct : forall l i, NoDup (List.map (fun x => create_sliteral_label (fst x)) (numbered i l)).
Proof.
  induction l as [| s l IH]; intros i; cbn [numbered List.map]; constructor; [| apply IH].
  intros I. apply in_map_iff in I as (x & E & I). apply string_inj in E. apply numbered_from in I. cbn in E. lia.
Qed.
Theorem program_labels a s cs : resolve a = Ok s -> plain_names s -> immcgen s = Ok cs -> NoDup (labels cs) /\ jumps_resolved cs.
Proof.
  intros R PN G. apply resolve_sound in R as (ss & E' & -> & U & ST).
  unfold immcgen in G. apply bind_ok in G as ([c g] & M & G). injection G as <-. cbn [gen] in M. unfold gen_body in M. cbn [srt_type stmt_node srt_children] in M.
  pose proof (user_dotless _ _ _ _ U PN) as UD.
  assert (IN : forall n, In n (flat_map item_names ss) -> In n (flat_map user_names ss) \/ In n (List.map (fun x => create_sliteral_label (fst x)) (string_decls ss))).
  { intros n I. rewrite (count_occ_In name_dec) in I |- *. rewrite (count_occ_In name_dec). rewrite names_split in I. lia. }
  assert (P : forall n, In n (flat_map item_names ss) -> plain_name n).
  { intros n I. destruct (IN n I) as [I' | I']; [now apply dotless_plain, UD |]. apply in_map_iff in I' as (x & <- & _). apply string_plain. }
  destruct (unit_chunk _ _ _ _ _ U P _ _ _ (eq_refl : file_scope new_immcgen) M) as [_ K1 K2 K3].
  split; [| now apply blocks_resolved]. apply (NoDup_count_occ name_dec). intros n. fold (occ n c).
  destruct (in_dec name_dec n (labels c)) as [I | I]; [| unfold occ; apply (count_occ_not_In name_dec) in I; lia].
  destruct (in_dec name_dec n (flat_map item_names ss)) as [J | J].
  - specialize (K2 n (P n J)). rewrite names_split in K2. destruct (unit_names _ _ _ _ U eq_refl) as [N1 _]. rewrite (NoDup_count_occ name_dec) in N1. specialize (N1 n).
    pose proof (numbered_distinct (e_strings E') 0) as N2. rewrite <- ST, (NoDup_count_occ name_dec) in N2. specialize (N2 n).
    destruct (in_dec name_dec n (flat_map user_names ss)) as [Q | Q]; [| apply (count_occ_not_In name_dec) in Q; lia].
    destruct (in_dec name_dec n (List.map (fun x => create_sliteral_label (fst x)) (string_decls ss))) as [Q' | Q']; [| apply (count_occ_not_In name_dec) in Q'; lia].
    apply UD in Q. apply in_map_iff in Q' as (x & <- & _). now apply string_not_dotless in Q.
  - apply (count_occ_not_In name_dec) in J.
    assert (X : {forall i, n <> create_label_name i} + {~ forall i, n <> create_label_name i}).
    { destruct (Nat.eq_dec 0 0); [| contradiction]. destruct (Nat.leb 2 (length n)) eqn:LN.
      2: { left. intros i ->. unfold create_label_name in LN. rewrite app_length in LN. cbn in LN. discriminate. }
      destruct (AsmSpec.read_number (skipn 2 n)) as [i |] eqn:RN.
      2: { left. intros i ->. unfold create_label_name in RN. cbn [bytes app skipn] in RN. change (skipn 2 (bytes ".L" ++ print_signed i)) with (print_signed i) in RN. now rewrite AsmProofs.read_number_signed in RN. }
      destruct (name_dec n (create_label_name i)) as [-> | NE]; [right; intros Q; now apply (Q i) |].
      left. intros j ->. change (skipn 2 (create_label_name j)) with (print_signed j) in RN. rewrite AsmProofs.read_number_signed in RN. injection RN as <-. contradiction. }
    destruct X as [X | X]; [specialize (K2 n X); lia |].
    destruct (Nat.le_gt_cases (occ n c) 1) as [Q | Q]; [exact Q |]. exfalso. apply X. intros i ->. specialize (K1 i). lia.
Qed.
