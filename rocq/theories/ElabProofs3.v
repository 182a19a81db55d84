(** Proofs for C23 - C25, C27, C28, third part: types and declarators. *)
From Verif Require Import Base AstModel DtypeModel SymtabModel SrtModel ResolverModel TypeSpec TypeProofs TypeProofs2 ElabSpec ElabProofs ElabProofs2.
Local Open Scope Z_scope.

Lemma rmap_cons {A B} (f : A -> rst -> rres B) x r st bs st' : rmap f (x :: r) st = Ok (Some bs, st') ->
  exists b st1 bs', f x st = Ok (Some b, st1) /\ rmap f r st1 = Ok (Some bs', st') /\ bs = b :: bs'.
Proof.
  cbn [rmap]. intros H. apply bind_ok in H as ([o st1] & M & H). apply bind_ok in H as ([os st2] & M2 & H).
  injection H as H <-. destruct o as [v |]; [| discriminate]. destruct os as [vs |]; [| discriminate]. injection H as <-. eauto 10.
Qed.
Lemma name_ok t p cs n : ast_name (Ast t p cs) = Ok n -> p = PName n.
Proof. unfold ast_name. cbn. destruct p; intros H; try discriminate. now injection H as ->. Qed.
Lemma wraps_as_int v : as_int v (wraps 32 v).
Proof.
  unfold as_int, wraps. cbn zeta. pose proof (Z.mod_pos_bound v (2 ^ 32) ltac:(lia)) as B. pose proof (Z.div_mod v (2 ^ 32) ltac:(lia)) as D.
  change (2 ^ (32 - 1)) with 2147483648. change (2 ^ 31) with 2147483648. change (2 ^ 32) with 4294967296 in *.
  destruct (_ <? _) eqn:E; split; try lia; [exists (v / 4294967296) | exists (v / 4294967296 + 1)]; lia.
Qed.
Lemma quiet_tags st t : quiet st (set_tags t st).
Proof. split; try reflexivity. split; [exists []; now rewrite app_nil_r |]. cbn. destruct (r_scope st); [| exact I]. exists []. now rewrite app_nil_r. Qed.
Lemma quiet_syms st t : quiet st (set_syms t st).
Proof. split; try reflexivity. split; [exists []; now rewrite app_nil_r |]. cbn. destruct (r_scope st); [| exact I]. exists []. now rewrite app_nil_r. Qed.
Lemma quiet_enum st t : quiet st (set_enum t st).
Proof. split; try reflexivity. split; [exists []; now rewrite app_nil_r |]. cbn. destruct (r_scope st); [| exact I]. exists []. now rewrite app_nil_r. Qed.
Lemma quiet_push st s : tag_decl s = true -> quiet st (push_scope s st).
Proof.
  intros H. unfold push_scope. destruct (r_scope st) as [l |] eqn:E; (split; [reflexivity .. |]); split; cbn; rewrite ?E.
  - exists []. now rewrite app_nil_r.
  - exists [s]. cbn. now rewrite H.
  - exists [s]. cbn. unfold hidden. now rewrite H.
  - exact I.
Qed.
Lemma push_strings s st : string_of s = None -> string_decls (r_tu (push_scope s st)) = string_decls (r_tu st).
Proof. intros N. unfold push_scope. destruct (r_scope st); cbn; [reflexivity |]. rewrite string_decls_app. cbn. rewrite N. apply app_nil_r. Qed.
Lemma env_push s st : string_of s = None -> env_of (push_scope s st) = env_of st.
Proof. intros N. unfold env_of. rewrite push_strings by assumption. unfold push_scope. now destruct (r_scope st). Qed.
Lemma strings_push s st : string_of s = None -> strings_ok st -> strings_ok (push_scope s st).
Proof. intros N S. unfold strings_ok. rewrite push_strings, env_push by assumption. unfold push_scope. now destruct (r_scope st). Qed.

Record specs_ok (st : rst) (l : list ast) (d : dtype) (st' : rst) : Prop := {
  so_specs : specifiers (env_of st) l d (env_of st');
  so_clean : clean d = true;
  so_inv : inv st';
  so_quiet : quiet st st'
}.
Definition around_of (socket : list link) : around :=
  match socket with LPointer :: _ => AroundPointer | LArray _ :: _ => AroundArray | LFunction _ :: _ => AroundFunction | _ => AroundNone end.
Record declor_ok (st : rst) (td : bool) (base : dtype) (socket : list link) (a : ast) (n : option name) (ls : list link) (st' : rst) : Prop := {
  do_links : exists ls', ls = rev socket ++ ls' /\ declarator (env_of st) td (around_of socket) base a n (dtype_connect ls' base) (env_of st')
    /\ clean (dtype_connect ls' base) = true;
  do_inv : inv st';
  do_quiet : quiet st st'
}.
Definition spec_of (td : bool) (base : dtype) : dtype := if td then DTYPE_TYPEDEF base else base.

Section Types.
Variable k : knot.
Hypothesis KE : forall a st s st', inv st -> k_expr k a st = Ok (Some s, st') -> expr_ok st a s st'.
Hypothesis KS : forall a st d st', inv st -> k_specs k a st = Ok (Some d, st') -> specs_ok st (ast_children a) d st'.
Hypothesis KD : forall td base socket a st n ls st', inv st -> clean base = true ->
  k_declor k (spec_of td base) socket a st = Ok (Some (n, ls), st') -> declor_ok st td base socket a n ls st'.

(** a declarator that is not inside another one *)
Lemma whole_declarator td base a st n ls st' : inv st -> clean base = true -> k_declor k (spec_of td base) [] a st = Ok (Some (n, ls), st') ->
  declarator (env_of st) td AroundNone base a n (dtype_connect ls base) (env_of st') /\ clean (dtype_connect ls base) = true /\ inv st' /\ quiet st st'.
Proof. intros I C H. destruct (KD _ _ _ _ _ _ _ _ I C H) as [(ls' & -> & D & C') I' Q]. cbn. auto. Qed.

Lemma type_name_step a st d st' : inv st -> resolve_type_name k a st = Ok (Some d, st') -> type_ok st a d st'.
Proof.
  intros I H. unfold resolve_type_name in H. rinv. destruct (KS _ _ _ _ I M0) as [S1 S2 S3 S4]. destruct a1 as [n ls]. rinv.
  destruct (whole_declarator false _ _ _ _ _ _ S3 S2 M2) as (D1 & D2 & D3 & D4).
  destruct a as [t p cs]. cbn [ast_children] in M, M1. destruct (nth0 _ _ M) as (q & ->). destruct (nth1 _ _ _ M1) as (q' & ->).
  destruct v as [t1 p1 c1]. split; auto; [| quiet]. econstructor; eauto.
Qed.

(** ** Structs *)
Lemma struct_declarators_ok base : clean base = true -> forall l st ms st', inv st -> rmap (resolve_struct_declarator k base) l st = Ok (Some ms, st') ->
  struct_declarators (env_of st) base l ms (env_of st') /\ forallb (fun m => clean (snd m)) ms = true /\ inv st' /\ quiet st st'.
Proof.
  intros C. induction l as [| a l IH]; intros st ms st' I H.
  - cbn in H. rinv. splits; auto. constructor.
  - apply rmap_cons in H as (b & st1 & bs & F & H & ->). unfold resolve_struct_declarator in F. rinv. destruct a0 as [n ls]. rinv.
    destruct (whole_declarator false _ _ _ _ _ _ I C M) as (D1 & D2 & D3 & D4). destruct (IH _ _ _ D3 H) as (R1 & R2 & R3 & R4).
    splits; auto; [| cbn; now rewrite D2 | quiet]. subst n. econstructor; eauto using isincomplete_false. intros ps r E. rewrite E in *. discriminate.
Qed.
Lemma struct_decls_ok : forall l st mss st', inv st -> rmap (resolve_struct_decl k) l st = Ok (Some mss, st') ->
  struct_decls (env_of st) l (concat mss) (env_of st') /\ forallb (fun m => clean (snd m)) (concat mss) = true /\ inv st' /\ quiet st st'.
Proof.
  induction l as [| a l IH]; intros st mss st' I H.
  - cbn in H. rinv. splits; auto. constructor.
  - apply rmap_cons in H as (b & st1 & bs & F & H & ->). unfold resolve_struct_decl in F. rinv.
    destruct (KS _ _ _ _ I M0) as [S1 S2 S3 S4]. destruct (struct_declarators_ok _ S2 _ _ _ _ S3 F) as (D1 & D2 & D3 & D4).
    destruct (IH _ _ _ D3 H) as (R1 & R2 & R3 & R4). splits; auto; [| cbn; now rewrite forallb_app, D2, R2 | quiet].
    destruct a as [t p cs]. cbn [ast_children] in M, M1. destruct (nth0 _ _ M) as (q & ->). destruct (nth1 _ _ _ M1) as (q' & ->).
    destruct v as [t1 p1 c1], v0 as [t2 p2 c2]. cbn. econstructor; eauto.
Qed.
Lemma has_dup_nodup l : has_dup l = false -> NoDup l.
Proof.
  induction l as [| n l IH]; cbn; [constructor |]. intros H. apply orb_false_elim in H as [H1 H2]. constructor; [| auto].
  intros J. assert (existsb (name_eqb n) l = true); [| congruence]. apply existsb_exists. exists n. split; [assumption |]. now apply name_eqb_eq.
Qed.
Lemma layout_map : forall ms nb al members nb' al', layout_members ms nb al = Ok (members, nb', al') -> List.map fst members = ms.
Proof.
  induction ms as [| [n d] ms IH]; cbn [layout_members]; intros nb al members nb' al' H.
  - injection H as <- <- <-. reflexivity.
  - apply bind_ok in H as (off & _ & H). apply bind_ok in H as ([[rest nb1] al1] & M & H). injection H as <- <- <-. cbn. f_equal. eauto.
Qed.
Lemma unnamed_struct ms d : new_unnamed_struct ms = Ok d -> exists members size align, d = DTYPE_USTRUCT members size align /\ struct_type ms members size align.
Proof.
  intros H. pose proof H as H0. unfold new_unnamed_struct in H. apply bind_ok in H as ([[members nb] al] & M & H). apply bind_ok in H as (nb' & _ & H).
  injection H as <-. exists members, nb', al. split; [reflexivity |]. split; [eapply layout_map; eassumption |].
  intros N F. destruct (struct_layout ms N F) as (m2 & s2 & a2 & E & _ & L & _). rewrite H0 in E. injection E as -> -> ->. exact L.
Qed.
Lemma struct_clean ms members size align : struct_type ms members size align -> forallb (fun m => clean (snd m)) ms = true ->
  clean (DTYPE_USTRUCT members size align) = true.
Proof.
  intros [M _] C. cbn. subst ms. rewrite forallb_forall in *. intros m J. exact (C (fst m) (in_map fst _ _ J)).
Qed.
Lemma tag_search_add t n d : t <> [] -> tag_search (tag_add t n d) n = Some d.
Proof. destruct t as [| s t]; [congruence |]. intros _. cbn. replace (name_eqb n n) with true; [reflexivity |]. symmetry. now apply name_eqb_eq. Qed.

Lemma struct_specifier_ok a st d st' : inv st -> ast_type a = AST_TYPE_STRUCT -> resolve_struct_specifier k a st = Ok (Some d, st') -> specs_ok st [a] d st'.
Proof.
  intros I T H. unfold resolve_struct_specifier in H. apply bind_ok in H as (sn & SN & H). apply rbind_some in H as (members & st1 & MM & H).
  destruct a as [t p cs]. cbn [ast_type ast_children] in *. subst t.
  assert (L : forall c mss st0, ast_is c AST_STRUCT_DECL_LIST = true -> rbind (resolve_struct_decl_list k c st) (fun ms st => rok (Some ms) st) = Ok (Some mss, st0) ->
    exists ms, mss = Some ms /\ struct_decls (env_of st) (ast_children c) ms (env_of st0) /\ NoDup (List.map fst ms) /\ forallb (fun m => clean (snd m)) ms = true /\ inv st0 /\ quiet st st0).
  { intros c mss st0 CL F. unfold resolve_struct_decl_list in F. rinv. destruct (struct_decls_ok _ _ _ _ I M0) as (R1 & R2 & R3 & R4). eexists. splits; eauto using has_dup_nodup. }
  destruct sn as [n |].
  - (* a tag *)
    destruct cs as [| c0 cs]; [discriminate |]. cbn [nth_error] in SN. destruct (ast_is c0 AST_STRUCT_NAME) eqn:C0; [| discriminate].
    apply ast_is_true in C0. apply bind_ok in SN as (n' & SN & E). injection E as ->. destruct c0 as [t0 q0 k0]. cbn in C0. subst t0. apply name_ok in SN.
    cbn [nth_error] in MM.
    assert (NoList : forall X : Prop, (members = None -> st1 = st -> (match cs with Ast AST_STRUCT_DECL_LIST _ _ :: _ => False | _ => True end) -> X) ->
       (forall q2 l cs', cs = Ast AST_STRUCT_DECL_LIST q2 l :: cs' -> rbind (resolve_struct_decl_list k (Ast AST_STRUCT_DECL_LIST q2 l) st) (fun ms st => rok (Some ms) st) = Ok (Some members, st1) -> X) -> X).
    { intros X X1 X2. destruct cs as [| c1 cs]; cbn in MM.
      - unfold rok in MM. injection MM as <- <-. apply X1; auto.
      - destruct (ast_is c1 AST_STRUCT_DECL_LIST) eqn:C1.
        + apply ast_is_true in C1. destruct c1 as [t1 q1 k1]. cbn in C1. subst t1. eapply X2; [reflexivity | exact MM].
        + unfold rok in MM. injection MM as <- <-. apply X1; auto. destruct c1 as [t1 q1 k1]. apply ast_is_false in C1. cbn in C1. destruct t1; auto; congruence. }
    apply NoList; clear NoList MM.
    + intros -> -> NL. destruct (tag_search (r_tags st) n) as [u |] eqn:TS.
      * pose proof (tag_search_ok _ _ _ (proj1 (proj2 I)) TS) as CU. destruct u; try discriminate. rinv.
        split; auto. eapply specifiers_struct; eauto. right. eauto.
      * rinv. split; auto. eapply specifiers_struct; eauto.
    + intros q2 l cs' -> F. destruct (L (Ast AST_STRUCT_DECL_LIST q2 l) _ _ eq_refl F) as (ms & -> & R1 & R2 & R3 & R4 & R5).
      apply bind_ok in H as (b & B & H). destruct b; cbn [negb] in H; [| discriminate].
      apply bind_ok in H as (tags & TG & H). apply bind_ok in H as (u & U & H). cbn [r_tags set_tags] in U.
      unfold tag_define_struct in TG. rewrite B in TG. cbn [bind] in TG. apply bind_ok in TG as (du & DU & TG). apply Ok_inj in TG. subst tags.
      apply deref_ok in U. rewrite tag_search_add in U; [| intros E; rewrite E in B; discriminate]. injection U as <-.
      destruct (unnamed_struct _ _ DU) as (members & size & align & -> & ST). pose proof (struct_clean _ _ _ _ ST R3) as CU. unfold rok in H. injection H as <- <-.
      assert (EV : env_of (push_scope (new_identifier_srt SRT_TAG_DECL (DTYPE_USTRUCT members size align) n) (set_tags (tag_add (r_tags st1) n (DTYPE_USTRUCT members size align)) st1))
        = with_tags (env_of st1) (tag_add (e_tags (env_of st1)) n (DTYPE_USTRUCT members size align))) by now rewrite env_push.
      split.
      * rewrite EV. eapply specifiers_struct_definition; eauto.
      * reflexivity.
      * destruct R4 as (J1 & J2 & J3). injection EV as EV1 EV2 EV3. unfold inv. rewrite EV1, EV2. split; [exact J1 |].
        split; [apply tag_add_ok; [exact J2 | exact CU] |]. now apply strings_push.
      * eapply quiet_trans; [eassumption |]. eapply quiet_trans; [apply quiet_tags |]. now apply quiet_push.
  - (* no tag *)
    destruct cs as [| c0 cs]; cbn [nth_error] in SN, MM.
    + unfold rok in MM. injection MM as <- <-. discriminate.
    + destruct (ast_is c0 AST_STRUCT_NAME); [apply bind_ok in SN as (? & _ & E); discriminate |].
      destruct (ast_is c0 AST_STRUCT_DECL_LIST) eqn:C0; [| unfold rok in MM; injection MM as <- <-; discriminate].
      destruct (L _ _ _ C0 MM) as (ms & -> & R1 & R2 & R3 & R4 & R5). apply ast_is_true in C0. destruct c0 as [t0 q0 k0]. cbn in C0. subst t0.
      cbn [deref bind] in H. rinv. destruct (unnamed_struct _ _ M0) as (members & size & align & -> & ST).
      split; auto; [| eapply struct_clean; eassumption]. eapply specifiers_unnamed_struct; eauto.
Qed.

(** ** Enumerations *)
Lemma literal_ok s v : srt_is s SRT_ILITERAL_EXPR = true -> srt_iliteral s = Ok v -> iliteral_isunsigned v = false -> literal_value s (sval v).
Proof.
  intros H E U. apply internal_srttype_dec_bl in H. split; [assumption |]. exists v. unfold srt_iliteral in E. destruct (srt_payload s); try discriminate. injection E as ->. auto.
Qed.
Lemma decay_literal s : srt_is (decay s) SRT_ILITERAL_EXPR = true -> decay s = s.
Proof.
  pose proof (decay_value s) as V. unfold value_of in V. destruct (srt_dtype s) as [d |]; [destruct d |]; try (intros _; exact V); rewrite V; discriminate.
Qed.
Ltac literal := match goal with H : srt_is (decay ?s) SRT_ILITERAL_EXPR = true |- _ => pose proof (decay_literal _ H) as DL; rewrite DL in * end.
Lemma enumerators_ok : forall l st vs st', inv st -> rmap (resolve_enumerator k) l st = Ok (Some vs, st') ->
  enumerators (env_of st) (r_enum st) l vs (env_of st') /\ inv st' /\ quiet st st'.
Proof.
  induction l as [| a l IH]; intros st vs st' I H.
  - cbn in H. rinv. splits; auto. constructor.
  - apply rmap_cons in H as (b & st1 & bs & F & H & ->). unfold resolve_enumerator in F. apply bind_ok in F as (c & C & F). apply child_ok in C.
    apply bind_ok in F as (n & N & F). apply bind_ok in F as (u & U & F). destruct u; cbn [negb] in F; [| discriminate].
    destruct a as [t p cs]. cbn [ast_children] in C. destruct (nth0 _ _ C) as (q & ->). destruct c as [tc pc cc]. apply name_ok in N.
    destruct (Nat.eqb _ _) eqn:L1 in F.
    + apply Nat.eqb_eq in L1. unfold nchildren in L1. cbn in L1. destruct q; [| discriminate]. rinv.
      match goal with S : sym_define_integer _ _ _ _ = Ok ?v |- _ => pose proof (define_integer_ok _ _ _ _ _ (proj1 I) (eq_refl : vclean DTYPE_INT = true) S) as SO end.
      assert (I1 : inv (set_enum (r_enum st + 1) (set_syms v st))) by (split; [exact SO | exact (proj2 I)]).
      destruct (IH _ _ _ I1 H) as (R1 & R2 & R3). splits; auto; [| eapply quiet_trans; [apply quiet_syms |]; eapply quiet_trans; [apply quiet_enum | exact R3]].
      eapply enumerators_default; eauto. rewrite Z.gtb_ltb in *. unfold INT_MAX in *. lia.
    + rinv. destruct (expr_at_ok k KE _ _ _ _ _ I M) as (x & NX & [EX TX IX QX]). cbn [ast_children] in NX. destruct (nth1 _ _ _ NX) as (q' & ->).
      bools. literal.
      pose proof (define_integer_ok _ _ _ _ _ (proj1 IX) (eq_refl : vclean DTYPE_INT = true) M1) as SO.
      set (st2 := set_enum (wraps 32 (sval v) + 1) (set_syms v0 st0)) in *.
      assert (I1 : inv st2) by (split; [exact SO | exact (proj2 IX)]).
      destruct (IH _ _ _ I1 H) as (R1 & R2 & R3). splits; auto.
      * eapply enumerators_value; eauto using literal_ok, wraps_as_int. unfold INT_MAX in *. rewrite Z.gtb_ltb in *. lia.
      * eapply quiet_trans; [exact QX |]. eapply quiet_trans; [apply quiet_syms |]. eapply quiet_trans; [apply quiet_enum | exact R3].
Qed.
Lemma enum_specifier_ok a st d st' : inv st -> ast_type a = AST_TYPE_ENUM -> resolve_enum_specifier k a st = Ok (Some d, st') -> specs_ok st [a] d st'.
Proof.
  intros I T H. unfold resolve_enum_specifier in H. apply bind_ok in H as (sn & SN & H). apply rbind_some in H as (members & st1 & MM & H).
  destruct a as [t p cs]. cbn [ast_type ast_children] in *. subst t.
  assert (L : forall c mss st0, rbind (resolve_enumerator_list k c st) (fun ms st => rok (Some ms) st) = Ok (Some mss, st0) ->
    exists vs, mss = Some vs /\ enumerators (env_of st) 0 (ast_children c) vs (env_of st0) /\ inv st0 /\ quiet st st0).
  { intros c mss st0 F. apply rbind_some in F as (vs & st2 & F & E). unfold rok in E. injection E as <- <-. unfold resolve_enumerator_list in F.
    apply bind_ok in F as ([o st3] & F & E). injection E as -> <-. destruct (enumerators_ok _ (set_enum 0 st) _ _ I F) as (R1 & R2 & R3).
    exists vs. splits; auto. eapply quiet_trans; [apply quiet_enum |]. eapply quiet_trans; [exact R3 | apply quiet_enum]. }
  destruct sn as [n |].
  - destruct cs as [| c0 cs]; [discriminate |]. cbn [nth_error] in SN. destruct (ast_is c0 AST_ENUM_NAME) eqn:C0; [| discriminate].
    apply ast_is_true in C0. apply bind_ok in SN as (n' & SN & E). injection E as ->. destruct c0 as [t0 q0 k0]. cbn in C0. subst t0. apply name_ok in SN.
    cbn [nth_error] in MM.
    assert (NoList : forall X : Prop, (members = None -> st1 = st -> (match cs with Ast AST_ENUMOR_LIST _ _ :: _ => False | _ => True end) -> X) ->
       (forall q2 l cs', cs = Ast AST_ENUMOR_LIST q2 l :: cs' -> rbind (resolve_enumerator_list k (Ast AST_ENUMOR_LIST q2 l) st) (fun ms st => rok (Some ms) st) = Ok (Some members, st1) -> X) -> X).
    { intros X X1 X2. destruct cs as [| c1 cs]; cbn in MM.
      - unfold rok in MM. injection MM as <- <-. apply X1; auto.
      - destruct (ast_is c1 AST_ENUMOR_LIST) eqn:C1.
        + apply ast_is_true in C1. destruct c1 as [t1 q1 k1]. cbn in C1. subst t1. eapply X2; [reflexivity | exact MM].
        + unfold rok in MM. injection MM as <- <-. apply X1; auto. destruct c1 as [t1 q1 k1]. apply ast_is_false in C1. cbn in C1. destruct t1; auto; congruence. }
    apply NoList; clear NoList MM.
    + intros -> -> NL. rinv. split; auto. eapply specifiers_enum; eauto.
    + intros q2 l cs' -> F. destruct (L _ _ _ F) as (vs & -> & R1 & R2 & R3).
      apply bind_ok in H as (b & B & H). destruct b; cbn [negb] in H; [| discriminate].
      apply bind_ok in H as (tags & TG & H). unfold tag_define_enum in TG. rewrite B in TG. cbn [bind] in TG. apply Ok_inj in TG. subst tags.
      unfold rok in H. injection H as <- <-. split.
      * eapply (specifiers_enum_definition (env_of st) p q0 n k0 q2 l cs' vs (env_of st1)); eauto.
      * reflexivity.
      * split; [exact (proj1 R2) |]. split; [| exact (proj2 (proj2 R2))]. apply tag_add_ok; [exact (proj1 (proj2 R2)) | reflexivity].
      * eapply quiet_trans; [eassumption | apply quiet_tags].
  - destruct cs as [| c0 cs]; cbn [nth_error] in SN, MM.
    + unfold rok in MM. injection MM as <- <-. discriminate.
    + destruct (ast_is c0 AST_ENUM_NAME); [apply bind_ok in SN as (? & _ & E); discriminate |].
      destruct (ast_is c0 AST_ENUMOR_LIST) eqn:C0; [| unfold rok in MM; injection MM as <- <-; discriminate].
      destruct (L _ _ _ MM) as (vs & -> & R1 & R2 & R3). apply ast_is_true in C0. destruct c0 as [t0 q0 k0]. cbn in C0. subst t0. rinv.
      split; auto. eapply specifiers_unnamed_enum; eauto.
Qed.
Lemma typedef_specifier_ok a st d st' : inv st -> ast_type a = AST_TYPEDEF_NAME -> resolve_typedef_name_specifier a st = Ok (Some d, st') -> specs_ok st [a] d st'.
Proof.
  intros I T H. unfold resolve_typedef_name_specifier in H. apply bind_ok in H as (n & N & H). apply bind_ok in H as (y & Y & H). apply deref_ok in Y.
  destruct a as [t p cs]. cbn in T. subst t. apply name_ok in N.
  pose proof (sym_search_ok _ _ _ (proj1 I) Y) as C. 
  assert (exists t, sy_dtype y = DTYPE_TYPEDEF t) as (t & DY) by (destruct (sy_dtype y); try discriminate; eauto). rewrite DY in *. cbn in C.
  destruct (negb (dtype_isincomplete t)) eqn:IC.
  - rinv. bools. split; auto. eapply specifiers_typedef_name; eauto using isincomplete_false.
  - destruct t; try discriminate. destruct (tag_search (r_tags st) n0) as [u |] eqn:TS.
    + pose proof (tag_search_ok _ _ _ (proj1 (proj2 I)) TS) as CU. destruct u; try discriminate. rinv. split; auto.
      eapply specifiers_typedef_struct; eauto; [cbn in IC; lia |]. right. eauto.
    + rinv. split; auto. eapply specifiers_typedef_struct; eauto. cbn in IC. lia.
Qed.
Lemma specs_step a st d st' : inv st -> resolve_type_specifier_list k a st = Ok (Some d, st') -> specs_ok st (ast_children a) d st'.
Proof.
  intros I H. destruct a as [t p cs]. rewrite classify_resolves in H. apply bind_ok in H as (sk & C & H). cbn [ast_children].
  assert (One : forall u, List.map ast_type cs = [u] -> exists c, cs = [c] /\ ast_type c = u).
  { intros u E. destruct cs as [| c [| c' cs]]; try discriminate. injection E as E. eauto. }
  destruct sk; try discriminate; pose proof (classify_inv _ _ C ltac:(congruence)) as CI; cbn in CI.
  - rinv. split; auto; [now constructor |]. unfold spells in CI. clear - CI. destruct CI as (l & J & _). cbn in J.
    repeat (destruct J as [J | J]; [injection J as _ <-; reflexivity |]). destruct J.
  - destruct (One _ CI) as (c & -> & T). cbn in H. now apply struct_specifier_ok.
  - destruct (One _ CI) as (c & -> & T). cbn in H. now apply enum_specifier_ok.
  - destruct (One _ CI) as (c & -> & T). cbn in H. now apply typedef_specifier_ok.
Qed.
Lemma decl_specifiers_split l : decl_specifiers l (existsb (fun c => ast_is c AST_STG_TYPEDEF) l) (filter (fun c => negb (ast_is c AST_STG_TYPEDEF)) l).
Proof.
  induction l as [| a l IH]; cbn; [constructor |]. destruct (ast_is a AST_STG_TYPEDEF) eqn:E; cbn.
  - econstructor; [now apply ast_is_true in E | exact IH].
  - apply decl_specifiers_other; [now apply ast_is_false in E | exact IH].
Qed.
Lemma decl_specifiers_ok a st d st' : inv st -> resolve_decl_specifiers k a st = Ok (Some d, st') ->
  exists td base specs, d = spec_of td base /\ decl_specifiers (ast_children a) td specs /\ specifiers (env_of st) specs base (env_of st') /\ clean base = true
    /\ inv st' /\ quiet st st' /\ (td = false -> specs = ast_children a /\ forall c, In c specs -> ast_type c <> AST_STG_TYPEDEF).
Proof.
  intros I H. unfold resolve_decl_specifiers in H. rinv. destruct (KS _ _ _ _ I M) as [S1 S2 S3 S4]. cbn [ast_children] in S1.
  eexists _, _, _. splits; eauto using decl_specifiers_split; [reflexivity |]. intros TD. split.
  - clear - TD. induction (ast_children a) as [| c l IH]; cbn in *; [reflexivity |]. apply orb_false_elim in TD as [T1 T2]. rewrite T1. cbn. f_equal. auto.
  - intros c J. apply filter_In in J as [_ J]. bools. now apply ast_is_false in J.
Qed.
Lemma spec_typedef td base : clean base = true -> is_typedef (spec_of td base) = td.
Proof. destruct td; [reflexivity |]. cbn. now destruct base. Qed.

(** ** Parameters *)
Lemma parameter_list_ok : forall l st ps st', inv st -> rmap (resolve_parameter_decl k) l st = Ok (Some ps, st') ->
  parameter_list (env_of st) l ps (env_of st') /\ forallb (fun p => clean (snd p)) ps = true /\ inv st' /\ quiet st st'.
Proof.
  induction l as [| a l IH]; intros st ps st' I H.
  - cbn in H. rinv. splits; auto. constructor.
  - apply rmap_cons in H as (b & st1 & bs & F & H & ->). unfold resolve_parameter_decl in F. apply bind_ok in F as (sp & SP & F). apply child_ok in SP.
    apply rbind_some in F as (spec & st2 & SS & F). destruct (decl_specifiers_ok _ _ _ _ I SS) as (td & base & specs & -> & D1 & D2 & D3 & D4 & D5 & D6).
    rewrite (spec_typedef _ _ D3) in F. destruct td; [discriminate |]. destruct (D6 eq_refl) as (-> & NT).
    apply bind_ok in F as (da & DA & F). apply child_ok in DA. apply rbind_some in F as ([n ls] & st3 & DD & F).
    destruct (whole_declarator false _ _ _ _ _ _ D4 D3 DD) as (E1 & E2 & E3 & E4). cbv zeta in F. unfold spec_of in F.
    assert (F' : (if dtype_isincomplete (adjusted (dtype_connect ls base)) then rerr st3 else rok (n, adjusted (dtype_connect ls base)) st3) = Ok (Some b, st1))
      by (clear - F; destruct (dtype_connect ls base); exact F).
    clear F. rinv. destruct (IH _ _ _ E3 H) as (R1 & R2 & R3 & R4).
    assert (CA : clean (adjusted (dtype_connect ls base)) = true) by (destruct (dtype_connect ls base); cbn in *; auto).
    splits; auto; [| cbn; now rewrite CA | quiet].
    destruct a as [t p cs]. cbn [ast_children] in SP, DA. destruct (nth0 _ _ SP) as (q & ->). destruct (nth1 _ _ _ DA) as (q' & ->).
    destruct sp as [t1 p1 c1]. cbn [ast_children] in *. eapply parameter_list_cons; eauto using isincomplete_false.
Qed.
Lemma some_names_in ps n : forall i d, nth_error ps i = Some (Some n, d) -> In n (some_names ps).
Proof.
  induction ps as [| [[m |] e] ps IH]; intros [| i] d H; cbn in *; try discriminate.
  - injection H as -> ->. now left.
  - right. eauto.
  - eauto.
Qed.
Lemma some_names_unique ps : NoDup (some_names ps) -> forall n i j d d', nth_error ps i = Some (Some n, d) -> nth_error ps j = Some (Some n, d') -> i = j.
Proof.
  induction ps as [| [[m |] e] ps IH]; intros N n [| i] [| j] d d' H1 H2; cbn in *; try discriminate; auto.
  - injection H1 as -> ->. inversion N; subst. apply some_names_in in H2. contradiction.
  - injection H2 as -> ->. inversion N; subst. apply some_names_in in H1. contradiction.
  - inversion N; subst. f_equal. eauto.
  - f_equal. eauto.
Qed.
Lemma parameters_ok a st ps st' : inv st -> resolve_parameter_list k a st = Ok (Some ps, st') ->
  parameters (env_of st) (ast_children a) ps (env_of st') /\ forallb (fun p => clean (snd p)) ps = true /\ inv st' /\ quiet st st'.
Proof.
  intros I H. unfold resolve_parameter_list in H. apply bind_ok in H as (v & V & H). destruct v.
  - rinv. splits; auto. unfold ast_is_void_parameter_list in V. destruct (negb _) eqn:L in V; [discriminate |]. bools. apply Nat.eqb_eq in L.
    unfold nchildren in L. rinv; [discriminate |]. destruct (ast_children a) as [| x [| ]]; try discriminate. cbn in M. injection M as ->.
    destruct v as [t p cs]. cbn [ast_children] in M0, M2. destruct (nth0 _ _ M0) as (q & ->). destruct (nth1 _ _ _ M2) as (q' & ->).
    destruct v0 as [t1 p1 c1]. bools. apply Nat.eqb_eq in Heqb. unfold nchildren in Heqb. cbn [ast_children] in *. destruct c1 as [| y [|]]; try discriminate. injection M1 as ->.
    repeat match goal with X : ast_is _ _ = true |- _ => apply ast_is_true in X end. destruct v1, v2. cbn in *. subst. constructor.
  - rinv. destruct (parameter_list_ok _ _ _ _ I M) as (R1 & R2 & R3 & R4). splits; auto. apply parameters_named; [assumption |].
    apply some_names_unique. now apply has_dup_nodup.
Qed.

(** ** Declarators *)
Lemma declor_step td base socket a st n ls st' : inv st -> clean base = true ->
  resolve_declarator k (spec_of td base) socket a st = Ok (Some (n, ls), st') -> declor_ok st td base socket a n ls st'.
Proof.
  intros I C H. unfold resolve_declarator in H. destruct a as [t p cs]. cbn [ast_type] in H.
  assert (Leaf : forall o, (t = AST_IDENT_DECLOR \/ t = AST_ABS_DECLOR) -> derivable td (around_of socket) base ->
    bind (if ast_is (Ast t p cs) AST_IDENT_DECLOR then do n <- ast_name (Ast t p cs); Ok (Some n) else Ok None) (fun n => rok (n, rev socket) st) = Ok (Some o, st') ->
    o = (n, ls) -> declor_ok st td base socket (Ast t p cs) n ls st').
  { intros o T D F ->. destruct T as [-> | ->]; cbn in F.
    - rinv. match goal with X : ast_name _ = _ |- _ => apply name_ok in X end. split; auto. exists []. splits; auto using app_nil_r. cbn. now apply declarator_name.
    - rinv. split; auto. exists []. splits; auto using app_nil_r. cbn. now apply declarator_abstract. }
  assert (Plug : (match spec_of td base with DTYPE_TYPEDEF d => d | _ => spec_of td base end) = base) by (destruct td; [reflexivity |]; cbn; now destruct base).
  assert (Inner : forall l c st1, quiet st st1 -> inv st1 -> k_declor k (spec_of td base) (l :: socket) c st1 = Ok (Some (n, ls), st') ->
    exists d', inv st' /\ quiet st st' /\ declarator (env_of st1) td (around_of [l]) base c n d' (env_of st') /\ clean d' = true
      /\ exists ls', ls = rev socket ++ (l :: ls') /\ d' = dtype_connect ls' base).
  { intros l c st1 Q I1 F. destruct (KD _ _ _ _ _ _ _ _ I1 C F) as [(ls' & -> & D1 & D2) D3 D4]. exists (dtype_connect ls' base). splits; auto.
    - quiet.
    - exists ls'. split; [| reflexivity]. cbn. now rewrite <- app_assoc. }
  destruct t; try discriminate.
  all: try (cbv zeta in H; rewrite Plug in H; destruct socket as [| [] socket]; try (eapply Leaf; [eauto | exact Logic.I | exact H | reflexivity]);
    destruct (dtype_isincomplete base) eqn:IC; cbn [andb negb] in H; try discriminate;
    try (eapply Leaf; [eauto | | exact H | reflexivity]; cbn; eauto using isincomplete_false; fail)).
  all: try (destruct (is_void (spec_of td base)) eqn:V; cbn [andb negb] in H; [| discriminate];
    eapply Leaf; [eauto | | exact H | reflexivity]; right; destruct td; [discriminate |]; cbn in V; destruct base; try discriminate; auto).
  - (* pointer *)
    rinv. destruct (Inner LPointer v st (quiet_refl st) I H) as (d' & J & Q & D & CD & ls' & -> & ->). cbn [ast_children] in M. destruct (nth0 _ _ M) as (q & ->).
    split; auto. exists (LPointer :: ls'). splits; auto. cbn. now apply declarator_pointer.
  - (* array *)
    assert (F : around_of socket <> AroundFunction /\ (rtry s, st <- expr_at k (Ast AST_ARRAY_DECLOR p cs) 1 st;
          let s := decay s in
          if negb (srt_is s SRT_ILITERAL_EXPR) then rerr st
          else
            do i <- srt_iliteral s;
            if iliteral_isunsigned i then rerr st
            else if sval i <=? 0 then rerr st
            else do c <- child (Ast AST_ARRAY_DECLOR p cs) 0; k_declor k (spec_of td base) (LArray (wraps 32 (sval i)) :: socket) c st)%res = Ok (Some (n, ls), st')).
    { destruct socket as [| [] socket]; try discriminate; (split; [discriminate | exact H]). }
    clear H. destruct F as (AF & H). cbv zeta in H. rinv. destruct (expr_at_ok k KE _ _ _ _ _ I M) as (x & NX & [EX TX IX QX]). bools. literal.
    cbn [ast_children] in *. destruct (nth0 _ _ M1) as (q & ->). destruct (nth1 _ _ _ NX) as (q' & ->).
    destruct (Inner _ _ _ QX IX H) as (d' & J & Q & D & CD & ls' & -> & ->).
    split; auto. exists (LArray (wraps 32 (sval v)) :: ls'). splits; auto. cbn. eapply declarator_array; eauto using literal_ok, wraps_as_int. lia.
  - (* function *)
    assert (F : around_of socket <> AroundFunction /\ around_of socket <> AroundArray /\ (do pa <- child (Ast AST_FUNC_DECLOR p cs) 1;
          rtry ps, st <- resolve_parameter_list k pa st;
          do c <- child (Ast AST_FUNC_DECLOR p cs) 0; k_declor k (spec_of td base) (LFunction ps :: socket) c st)%res = Ok (Some (n, ls), st')).
    { destruct socket as [| [] socket]; try discriminate; (split; [discriminate | split; [discriminate | exact H]]). }
    clear H. destruct F as (AF & AA & H). rinv. destruct (parameters_ok _ _ _ _ I M0) as (R1 & R2 & R3 & R4).
    cbn [ast_children] in *. destruct (nth0 _ _ M1) as (q & ->). destruct (nth1 _ _ _ M) as (q' & ->). destruct v as [t1 p1 c1].
    destruct (Inner _ _ _ R4 R3 H) as (d' & J & Q & D & CD & ls' & -> & ->).
    split; auto. exists (LFunction a :: ls'). splits; auto; [| cbn; now rewrite R2, CD]. cbn. eapply declarator_function; eauto.
Qed.
End Types.
