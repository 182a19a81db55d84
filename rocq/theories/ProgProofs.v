(** The pieces of the code of a program *)
From Verif Require Import Base SrtModel ResolverModel ImmcModel ImmcgenModel X64Isa X64Decode OpSpec TypeSpec TypeProofs CSem CProgram ImmcSem GenSpec ElabSpec ElabProofs ResolverProofs ElabProofs5 GenProofs IsaProofs LabelSpec LabelProofs LabelProofs2 LabelProofs3 ExprProofs ExprProofs2 StmtProofs StmtProofs2 StmtProofs3 ImmcProgram FunProofs ProgSpec DataProofs.
Open Scope Z_scope.
Notation envs := ExprProofs2.env.

(** * Outer scopes *)
Definition outer (Sc Sc' : scopes) : Prop :=
  exists a b r c d t, s_syms Sc = a :: r /\ s_syms Sc' = b :: r /\ s_tags Sc = c :: t /\ s_tags Sc' = d :: t.
Lemma outer_refl a r c t : outer (mkscopes (a :: r) (c :: t)) (mkscopes (a :: r) (c :: t)).
Proof. exists a, a, r, c, c, t. auto. Qed.
Lemma outer_trans A B C : outer A B -> outer B C -> outer A C.
Proof. intros (a & b & r & c & d & t & E1 & E2 & E3 & E4) (a' & b' & r' & c' & d' & t' & F1 & F2 & F3 & F4). rewrite E2 in F1. rewrite E4 in F3. injection F1 as <- <-. injection F3 as <- <-. exists a, b', r, c, d', t. auto. Qed.
Definition inside_scope (Sc : scopes) : Prop := s_syms Sc <> [] /\ s_tags Sc <> [].
Lemma outer_inside A B : outer A B -> inside_scope B.
Proof. intros (a & b & r & c & d & t & E1 & E2 & E3 & E4). split; congruence. Qed.
Lemma outer_self A : inside_scope A -> outer A A.
Proof. intros [N M]. destruct A as [[| a r] [| c t]]; cbn in *; try congruence. apply outer_refl. Qed.
Lemma define_memory_tail t n d t' : sym_define_memory t n d = Ok t' -> exists a b r, t = a :: r /\ t' = b :: r.
Proof. unfold sym_define_memory. intros H. apply bind_ok in H as (b & _ & H). destruct t as [| sc r]; [discriminate H |]. destruct b; [apply bind_ok in H as (nb & _ & H) |]; injection H as <-; eexists _, _, r; split; reflexivity. Qed.
Lemma define_label_tail t n d t' : sym_define_label t n d = Ok t' -> exists a b r, t = a :: r /\ t' = b :: r.
Proof. unfold sym_define_label. intros H. apply bind_ok in H as (b & _ & H). destruct t as [| sc r]; [discriminate H |]. injection H as <-. destruct b; eexists _, _, r; split; reflexivity. Qed.
Lemma declare_outer n d Sc Sc' : inside_scope Sc -> declare n d Sc = Ok Sc' -> outer Sc Sc'.
Proof.
  intros [_ N] H. unfold declare in H. apply bind_ok in H as (y & Hy & H). injection H as <-. assert (X : exists a b r, s_syms Sc = a :: r /\ y = b :: r) by (destruct (dtype_isobject d); [eapply define_memory_tail | eapply define_label_tail]; exact Hy).
  destruct X as (a & b & r & E & ->). destruct (s_tags Sc) as [| c t] eqn:Et; [congruence |]. exists a, b, r, c, c, t. cbn. auto.
Qed.
Lemma define_struct_tail t n ms t' : tag_define_struct t n ms = Ok t' -> exists a b r, t = a :: r /\ t' = b :: r.
Proof. unfold tag_define_struct. intros H. destruct t as [| sc r]; [discriminate H |]. apply bind_ok in H as (b & _ & H). destruct b; [apply bind_ok in H as (d & _ & H) |]; injection H as <-; eexists _, _, r; split; reflexivity. Qed.
Lemma declare_tag_outer n d Sc Sc' : inside_scope Sc -> declare_tag n d Sc = Ok Sc' -> outer Sc Sc'.
Proof.
  intros I H. unfold declare_tag in H. destruct d; try (injection H as <-; now apply outer_self); try discriminate H.
  apply bind_ok in H as (t & Ht & H). injection H as <-. apply define_struct_tail in Ht as (a & b & r & E & ->). destruct I as [I _]. destruct (s_syms Sc) as [| c s] eqn:Es; [congruence |]. exists c, c, s, a, b, r. cbn. auto.
Qed.
Lemma enter_inside Sc : inside_scope (enter Sc).
Proof. split; discriminate. Qed.
Lemma leave_outer Sc Sc1 Sc' : inside_scope Sc -> outer (enter Sc) Sc1 -> leave Sc1 = Ok Sc' -> outer Sc Sc'.
Proof.
  intros [I J] (a & b & r & c & d & t & E1 & E2 & E3 & E4) H. unfold leave in H. rewrite E2, E4 in H. cbn in E1, E3. injection E1 as <- <-. injection E3 as <- <-.
  destruct (s_syms Sc) as [| o r] eqn:Es; [congruence |]. destruct (s_tags Sc) as [| c t] eqn:Et; [congruence |]. cbn in H. injection H as <-. exists o, (mkscope (sc_map o) (sc_nbytes b)), r, c, c, t. cbn. auto.
Qed.
Lemma afters_outer' l : Forall (fun s => forall Sc Sc', inside_scope Sc -> after s Sc = Ok Sc' -> outer Sc Sc') l ->
  forall Sc Sc', inside_scope Sc -> afters l Sc = Ok Sc' -> outer Sc Sc'.
Proof.
  induction 1 as [| x l Hx _ IH]; intros Sc Sc' I H; cbn [afters] in H; [injection H as <-; now apply outer_self |].
  apply bind_ok in H as (Sc1 & H1 & H). assert (O := Hx _ _ I H1). eapply outer_trans; [exact O |]. apply IH; [now apply outer_inside in O | exact H].
Qed.
Lemma after_list l Sc : (fix afters (l : list srt) (Sc : scopes) {struct l} : res scopes := match l with [] => Ok Sc | x :: r => do Sc <- after x Sc; afters r Sc end) l Sc = afters l Sc.
Proof. revert Sc. induction l as [| x l IH]; intros Sc; [reflexivity |]. cbn [afters]. destruct (after x Sc); try reflexivity; apply IH. Qed.
Lemma after_outer : forall s Sc Sc', inside_scope Sc -> after s Sc = Ok Sc' -> outer Sc Sc'.
Proof.
  fix IH 1. intros [t o p cs] Sc Sc' I H.
  assert (Al : Forall (fun s => forall Sc Sc', inside_scope Sc -> after s Sc = Ok Sc' -> outer Sc Sc') cs). { clear -IH. induction cs as [| c cs IHl]; constructor; [apply IH | exact IHl]. }
  clear IH. assert (K : forall i c, nth_error cs i = Some c -> forall Sc Sc', inside_scope Sc -> after c Sc = Ok Sc' -> outer Sc Sc') by (intros i c E; rewrite Forall_forall in Al; apply Al, (nth_error_In _ _ E)).
  assert (Seq : forall i j a b Sc Sc', nth_error cs i = Some a -> nth_error cs j = Some b -> inside_scope Sc -> (do Sc <- after a Sc; after b Sc) = Ok Sc' -> outer Sc Sc').
  { intros i j a b S0 S1 Ea Eb I0 H0. apply bind_ok in H0 as (S2 & H1 & H2). assert (O := K _ _ Ea _ _ I0 H1). eapply outer_trans; [exact O |]. eapply (K _ _ Eb); [now apply outer_inside in O | exact H2]. }
  destruct t; cbn [after] in H; try (injection H as <-; now apply outer_self).
  all: try (rewrite after_list in H).
  - now apply (afters_outer' cs Al).
  - destruct o; [| injection H as <-; now apply outer_self]. destruct p; try (injection H as <-; now apply outer_self). now apply declare_tag_outer in H.
  - destruct cs; [injection H as <-; now apply outer_self |]. now apply (K 0%nat _ eq_refl).
  - destruct o; [| injection H as <-; now apply outer_self]. destruct p; try (injection H as <-; now apply outer_self). now apply declare_outer in H.
  - apply bind_ok in H as (Sc1 & H1 & H). eapply leave_outer; [exact I | | exact H]. apply (afters_outer' cs Al); [apply enter_inside | exact H1].
  - destruct cs as [| a [| b [| ? ?]]]; try (injection H as <-; now apply outer_self). now apply (K 1%nat _ eq_refl).
  - destruct cs as [| a [| ? ?]]; try (injection H as <-; now apply outer_self). now apply (K 0%nat _ eq_refl).
  - destruct cs as [| a [| b [| c [| ? ?]]]]; try (injection H as <-; now apply outer_self); [now apply (K 1%nat _ eq_refl) |].
    eapply (Seq 1%nat 2%nat); [reflexivity.. | exact I | exact H].
  - destruct cs as [| a [| b [| ? ?]]]; try (injection H as <-; now apply outer_self). now apply (K 1%nat _ eq_refl).
  - destruct cs as [| a [| b [| ? ?]]]; try (injection H as <-; now apply outer_self). now apply (K 1%nat _ eq_refl).
  - destruct cs as [| a [| b [| c [| d [| ? ?]]]]]; try (injection H as <-; now apply outer_self).
    apply bind_ok in H as (Sc1 & H1 & H). apply bind_ok in H as (Sc2 & H2 & H). eapply leave_outer; [exact I | | exact H].
    eapply (Seq 0%nat 3%nat); [reflexivity.. | apply enter_inside |]. rewrite H1. exact H2.
Qed.
Lemma afters_outer l Sc Sc' : inside_scope Sc -> afters l Sc = Ok Sc' -> outer Sc Sc'.
Proof. apply afters_outer'. rewrite Forall_forall. intros s _. apply after_outer. Qed.
Lemma parameters_outer : forall ps Sc Sc', inside_scope Sc -> param_scopes ps Sc = Ok Sc' -> outer Sc Sc'.
Proof.
  induction ps as [| [[n |] d] ps IH]; intros Sc Sc' I H; cbn [param_scopes] in H; [injection H as <-; now apply outer_self | | discriminate H].
  apply bind_ok in H as (y & Hy & H). apply define_memory_tail in Hy as (a & b & r & E & ->). destruct I as [_ I]. destruct (s_tags Sc) as [| c t] eqn:Et; [congruence |].
  assert (O : outer Sc (mkscopes (b :: r) (c :: t))) by (exists a, b, r, c, c, t; cbn; auto). eapply outer_trans; [exact O |]. apply IH; [now apply outer_inside in O | exact H].
Qed.

(** * The state between items *)
Record between (Sc : scopes) (st : gst) : Prop := {
  bt_env : envs Sc st;
  bt_syms : exists sc, g_syms st = [sc] /\ sc_nbytes sc = 0;
  bt_label : -1 <= g_label st;
  bt_tags : s_tags Sc <> [] }.
Lemma between_global Sc st : between Sc st -> is_global st = true.
Proof. intros [_ (sc & E & _) _ _]. unfold is_global. now rewrite E. Qed.
Lemma global_between n d Sc Sc' st syms : between Sc st -> global n d Sc = Ok Sc' -> sym_define_label (g_syms st) n d = Ok syms ->
  between Sc' (gset_syms syms st) /\ sym_search syms n = Some (mksym SYMBOL_LABEL d).
Proof.
  intros [[E1 E2] (sc & Es & Nb) L T] G H. unfold global in G. apply bind_ok in G as (b & Hb & G). apply bind_ok in G as ([] & Ck & G). apply check_ok in Ck. subst b. rewrite E1, H in G. cbn [bind] in G. injection G as <-.
  unfold sym_define_label in H. rewrite E1 in Hb. rewrite Hb in H. cbn [bind] in H. rewrite Es in H. injection H as <-. split.
  - split; [split; [reflexivity | exact E2] | eexists; split; [reflexivity | exact Nb] | exact L | exact T].
  - cbn. assert (X : name_eqb n n = true) by now apply name_eqb_eq. rewrite X. reflexivity.
Qed.
Lemma params_env : forall ps i st cs st' Sc, gen_params ps i st = Ok (cs, st') -> envs Sc st ->
  exists Sc', param_scopes ps Sc = Ok Sc' /\ envs Sc' st' /\ st' = gset_syms (g_syms st') st /\ length (g_syms st') = length (g_syms st).
Proof.
  induction ps as [| [[n |] d] ps IH]; intros i st cs st' Sc H En; cbn [gen_params] in H.
  - injection H as <- <-. exists Sc. split; [reflexivity |]. split; [exact En |]. split; [now destruct st | reflexivity].
  - cbn [deref bind] in H. apply bind_ok in H as (y & Hy & H). apply bind_ok in H as (sy & Hs & H). apply bind_ok in H as (off & Ho & H). apply bind_ok in H as ([c1 st1] & H1 & H). injection H as <- <-.
    destruct En as [E1 E2]. assert (E3 : envs (mkscopes y (s_tags Sc)) (gset_syms y st)) by (split; [reflexivity | exact E2]).
    destruct (IH _ _ _ _ _ H1 E3) as (Sc' & P & E4 & Est & L). exists Sc'. cbn [param_scopes]. rewrite E1, Hy. split; [exact P |]. split; [exact E4 |]. split; [rewrite Est; reflexivity |]. rewrite L. cbn. now apply FunProofs.define_memory_length in Hy.
  - discriminate H.
Qed.
Lemma parameters_eq : forall ps Sc, parameters ps Sc = param_scopes ps Sc.
Proof. reflexivity. Qed.
Lemma regular_items_eq : forall l Sc, regular_items Sc l = items_regular Sc l.
Proof. reflexivity. Qed.

Lemma function_piece f x y z n ps t bx by_ body st cs st' Sc0 Sc1 :
  gen_function_definition (gen f) (Srt SRT_FUNC_DEF x y [Srt SRT_IDENT_DECL (Some (DTYPE_FUNCTION ps t)) (SPName n) z; Srt SRT_CMPD_STMT bx by_ body]) st = Ok (cs, st') ->
  between Sc0 st -> global n (DTYPE_FUNCTION ps t) Sc0 = Ok Sc1 -> regular_function (mkfunc ps body Sc1) = true -> Forall (inside false (false, true) false) body ->
  between Sc1 st' /\ exists nb tl, cs = IMMC_LABEL IMMC_LABEL_FUNCTION IMMC_VIS_GLOBAL n :: IMMC_INST IMMC_INST_ENTER None (Some (IMMC_OPERAND_INT IMMC_SUFFIX_QUAD (new_signed IInt nb))) None :: tl
    /\ (forall c, In c tl -> ~ entry c)
    /\ forall Sc2 Sc3 Sc4, function_scopes (mkfunc ps body Sc1) = Ok Sc2 -> param_scopes ps Sc2 = Ok Sc3 -> afters body Sc3 = Ok Sc4 -> nb = frame_size Sc4.
Proof.
  intros H B G R I. unfold gen_function_definition in H. cbn [gchild srt_children nth_error deref bind srt_name srt_payload dty srt_dtype] in H.
  apply bind_ok in H as (sy1 & D1 & H). destruct (global_between _ _ _ _ _ _ B G D1) as [B1 _]. unfold next_label in H. apply bind_ok in H as (sy2 & D2 & H). apply bind_ok in H as ([c1 st1] & H1 & H). apply bind_ok in H as ([c2 st2] & H2 & H).
  apply bind_ok in H as (nb & Hnb & H). apply bind_ok in H as (tg & Htg & H). apply bind_ok in H as (sy3 & Hs3 & H). apply bind_ok in H as (sy4 & Hs4 & H). injection H as <- <-.
  destruct B1 as [[F1 F2] (sc & Fs & Nb) _ Tg]. cbn [g_syms g_tags gset_syms] in F1, F2, Fs. destruct B as [_ _ L _].
  unfold regular_function in R. assert (Fn : function_scopes (mkfunc ps body Sc1) = Ok (mkscopes sy2 (tag_enter (s_tags Sc1)))).
  { unfold function_scopes. cbn [f_scopes]. rewrite F1. cbn [g_syms gset_syms] in D2. rewrite D2. reflexivity. }
  rewrite Fn in R. cbn [bind f_params f_body] in R. rewrite parameters_eq in R.
  match type of H1 with gen_params _ _ ?s = _ => set (s1 := s) in * end.
  assert (Es : envs (mkscopes sy2 (tag_enter (s_tags Sc1))) s1) by (split; [reflexivity | cbn; now rewrite F2]).
  destruct (params_env _ _ _ _ _ _ H1 Es) as (Sc3 & P3 & E3 & Est & L3). rewrite P3, regular_items_eq in R.
  assert (Ly : length sy2 = 2%nat) by (apply FunProofs.set_nbytes_length in D2; cbn in D2; rewrite D2, Fs; reflexivity).
  assert (D3 : deep2 st1). { rewrite Est. split; cbn [g_syms gset_syms g_label]; [rewrite L3; cbn; lia | cbn; lia]. }
  destruct (items_settle f (gen_settles f) _ _ _ _ _ R E3 D3 H2) as (Sc4 & A4 & S2). destruct (se_env _ _ _ _ _ S2) as [E5 E6].
  assert (O : outer (mkscopes sy2 (tag_enter (s_tags Sc1))) Sc4).
  { assert (O1 : outer (mkscopes sy2 (tag_enter (s_tags Sc1))) Sc3). { eapply parameters_outer; [| exact P3]. split; cbn; [intros ->; discriminate Ly | discriminate]. }
    eapply outer_trans; [exact O1 |]. eapply afters_outer; [now apply outer_inside in O1 | exact A4]. }
  destruct O as (a & b & r & c & d & tt & O1 & O2 & O3 & O4). cbn [s_syms s_tags tag_enter] in O1, O3. injection O3 as <- <-.
  unfold sym_set_nbytes, sym_enter in D2. injection D2 as D2. rewrite <- D2 in O1. injection O1 as _ <-.
  rewrite <- E5, O2 in Hs3, Hnb. injection Hs3 as <-. injection Hnb as <-. rewrite <- E6, O4 in Htg. injection Htg as <-.
  split.
  - rewrite Fs in Hs4. cbn [sym_exit sc_nbytes] in Hs4. injection Hs4 as <-. split.
    + split; cbn [g_syms g_tags gset_tags gset_syms]; [| reflexivity]. rewrite F1, Fs. f_equal. destruct sc as [mp nb0]. cbn in Nb |- *. now rewrite Nb.
    + eexists. split; reflexivity.
    + cbn. assert (X := se_label _ _ _ _ _ S2). rewrite Est in X. cbn in X. lia.
    + exact Tg.
  - exists (sc_nbytes b). eexists. split; [reflexivity |]. split.
    + intros c' Hc. apply in_app_iff in Hc as [Hc | Hc].
      * apply params_plain in H1 as [Pl _]. rewrite Forall_forall in Pl. specialize (Pl _ Hc). intros (? & ? & [-> | ->]); exact Pl.
      * apply in_app_iff in Hc as [Hc | [<- | [<- | []]]]; [| intros (? & ? & [? | ?]); discriminate..].
        assert (A : lab false (false, true) st1 c2 st2) by (eapply lab_list; [exact (gen_lab f) | exact I | intros _; rewrite Est; cbn; rewrite L3; cbn; lia | exact H2]). exact (lab_inner _ _ _ _ _ A _ Hc).
    + intros Sc2 Sc3' Sc4' Fn' P' A'. rewrite Fn in Fn'. injection Fn' as <-. rewrite P3 in P'. injection P' as <-. rewrite A4 in A'. injection A' as <-. unfold frame_size. now rewrite O2.
Qed.

(** * Pieces *)
Inductive piece := PFun (n : name) (f : func) (cs : list immc) | PVar (o : static) (ds : list immc) (l : list Z).
Definition static_name (o : static) : name := object_name (o_name o).
Definition code_of (p : piece) : list immc :=
  match p with PFun _ _ cs => cs | PVar o ds _ => IMMC_LABEL IMMC_LABEL_VARIABLE IMMC_VIS_GLOBAL (static_name o) :: ds end.
Definition funs_of (p : piece) : list (name * func) := match p with PFun n f _ => [(n, f)] | PVar _ _ _ => [] end.
Definition vars_of (p : piece) : list static := match p with PFun _ _ _ => [] | PVar o _ _ => [o] end.
Definition fun_code (n : name) (f : func) (cs : list immc) : Prop :=
  exists fuel x y z t bx by_ st st' Sc0,
    gen_function_definition (gen fuel) (Srt SRT_FUNC_DEF x y [Srt SRT_IDENT_DECL (Some (DTYPE_FUNCTION (f_params f) t)) (SPName n) z; Srt SRT_CMPD_STMT bx by_ (f_body f)]) st = Ok (cs, st')
    /\ between Sc0 st /\ global n (DTYPE_FUNCTION (f_params f) t) Sc0 = Ok (f_scopes f) /\ Forall (inside false (false, true) false) (f_body f) /\ regular_function f = true.
Definition var_code (o : static) (ds : list immc) (l : list Z) : Prop :=
  all_data ds = Some l /\ (o_init o = None -> l = repeat 0 (Z.to_nat (sizeof (o_type o)))) /\ (forall i, o_init o = Some i -> puts i (o_type o) (s_tags (o_scopes o)) l).
Definition good (p : piece) : Prop := match p with PFun n f cs => fun_code n f cs | PVar o ds l => var_code o ds l end.

Inductive decl_is : srt -> object -> dtype -> Prop :=
| di_name d n z : decl_is (Srt SRT_IDENT_DECL (Some d) (SPName n) z) (Variable_ n) d
| di_string d id z : decl_is (Srt SRT_STR_DECL (Some d) (SPStrId id) z) (String_ id) d.
Inductive decl_shape : srt -> Prop :=
| decl_shape_intro x y decl is_ o d : decl_is decl o d -> (length is_ <= 1)%nat -> decl_shape (Srt SRT_INIT_DECL x y (decl :: is_)).
Inductive item_shape : srt -> Prop :=
| is_tag ms nb al n z : item_shape (Srt SRT_TAG_DECL (Some (DTYPE_USTRUCT ms nb al)) (SPName n) z)
| is_decls x y ss : Forall decl_shape ss -> item_shape (Srt SRT_DECL_LIST x y ss)
| is_function x y ps t n z bx by_ body : Forall (inside false (false, true) false) body ->
    item_shape (Srt SRT_FUNC_DEF x y [Srt SRT_IDENT_DECL (Some (DTYPE_FUNCTION ps t)) (SPName n) z; Srt SRT_CMPD_STMT bx by_ body]).

Lemma init_decl_piece f x y decl is_ o d st cs st' Sc Sc' :
  decl_is decl o d -> (length is_ <= 1)%nat -> gen f None (Srt SRT_INIT_DECL x y (decl :: is_)) st = Ok (cs, st') -> between Sc st ->
  global (object_name o) d Sc = Ok Sc' -> (dtype_isobject d = true -> regular_object (mkstatic o d (hd_error is_) Sc') = true) ->
  between Sc' st' /\ exists ps, cs = flat_map code_of ps /\ Forall good ps /\ flat_map funs_of ps = [] /\ flat_map vars_of ps = (if dtype_isobject d then [mkstatic o d (hd_error is_) Sc'] else []).
Proof.
  intros Di Ln H B G R. destruct f as [| f]; [discriminate |]. cbn [gen] in H. unfold gen_body in H. cbn [srt_type] in H. unfold gen_init_decl in H. rewrite (between_global _ _ B) in H. unfold gen_global_init_decl in H.
  apply bind_ok in H as ([c0 st0] & H0 & H). unfold append_child in H0. cbn [gchild nth_error srt_children deref bind] in H0, H.
  assert (X : c0 = [] /\ exists syms, st0 = gset_syms syms st /\ sym_define_label (g_syms st) (object_name o) d = Ok syms).
  { destruct f as [| f']; [discriminate |]. cbn [gen] in H0. unfold gen_body in H0. destruct Di; cbn [srt_type] in H0.
    - unfold gen_identifier_decl in H0. cbn [srt_name srt_payload dty srt_dtype deref bind] in H0. rewrite (between_global _ _ B) in H0. cbn [orb] in H0. apply bind_ok in H0 as (syms & D & H0). injection H0 as <- <-. eauto.
    - unfold gen_string_decl in H0. cbn [srt_strid srt_payload dty srt_dtype deref bind] in H0. apply bind_ok in H0 as (syms & D & H0). injection H0 as <- <-. eauto. }
  destruct X as (-> & syms & -> & D). destruct (global_between _ _ _ _ _ _ B G D) as [B1 Se].
  apply bind_ok in H as (m & Hm & H). assert (m = object_name o). { destruct Di; cbn in Hm; injection Hm as <-; reflexivity. } subst m.
  cbn [g_syms gset_syms] in H. rewrite Se in H. cbn [deref bind sy_dtype] in H.
  assert (Dd : dty decl = Ok d) by (destruct Di; reflexivity).
  destruct (dtype_isobject d); cbn [negb] in H.
  2: { injection H as <- <-. split; [exact B1 |]. exists []. repeat split; constructor. }
  specialize (R eq_refl). destruct is_ as [| i [| ? ?]]; [| | cbn in Ln; lia].
  - cbn [length Nat.eqb] in H. rewrite Dd in H. cbn [bind] in H. injection H as <- <-. split; [exact B1 |].
    exists [PVar (mkstatic o d None Sc') [new_int_data_immc IMMC_DATA_ZERO (new_signed IInt (dtype_nbytes d))] (repeat 0 (Z.to_nat (sizeof d)))]. split; [reflexivity |]. split; [| split; reflexivity].
    constructor; [| constructor]. split; [| split; [reflexivity | discriminate]]. cbn. rewrite app_nil_r. now rewrite nbytes_sizeof.
  - cbn [length Nat.eqb gchild srt_children nth_error deref bind] in H. apply bind_ok in H as ([c1 st1] & H1 & H). injection H as <- <-.
    unfold regular_object in R. cbn [o_init hd_error o_scopes o_type] in R. destruct B1 as [[F1 F2] Bs Bl Bt]. rewrite F2 in R.
    assert (Gl : is_global (gset_syms syms st) = true) by (destruct Bs as (sc & Es & _); unfold is_global; rewrite Es; reflexivity).
    destruct (static_data _ _ _ _ _ _ H1 Gl R) as (-> & l & Da & Pu). split; [split; [split; [exact F1 | exact F2] | exact Bs | exact Bl | exact Bt] |].
    exists [PVar (mkstatic o d (Some i) Sc') c1 l]. split; [cbn; now rewrite app_nil_r |]. split; [| split; reflexivity]. constructor; [| constructor].
    split; [exact Da |]. split; [discriminate |]. cbn. intros i' E. injection E as <-. rewrite F2. exact Pu.
Qed.

(** what is collected stays *)
Definition grown (u u' : unit_) : Prop := (exists l, u_functions u' = l ++ u_functions u) /\ (exists l, u_statics u' = u_statics u ++ l).
Lemma grown_refl u : grown u u.
Proof. split; exists []; [reflexivity | now rewrite app_nil_r]. Qed.
Lemma grown_trans u v w : grown u v -> grown v w -> grown u w.
Proof. intros [(a & A) (b & B)] [(c & C) (d & D)]. split; [exists (c ++ a); now rewrite C, A, app_assoc | exists (b ++ d); now rewrite D, B, app_assoc]. Qed.
Lemma add_static_grown o d i Sc u : grown u (add_static o d i (set_scopes Sc u)).
Proof. unfold add_static. destruct (dtype_isobject d); [| split; [now exists [] | exists []; cbn; now rewrite app_nil_r]]. split; [now exists [] | eexists; reflexivity]. Qed.
Lemma collect_decls_shape x y decl is_ o d r u : decl_is decl o d ->
  collect_decls (Srt SRT_INIT_DECL x y (decl :: is_) :: r) u = do Sc <- global (object_name o) d (u_scopes u); collect_decls r (add_static o d (hd_error is_) (set_scopes Sc u)).
Proof. intros []; reflexivity. Qed.
Lemma collect_decls_grown : forall ss u u', Forall decl_shape ss -> collect_decls ss u = Ok u' -> grown u u'.
Proof.
  induction ss as [| s ss IH]; intros u u' F H; [injection H as <-; apply grown_refl |]. destruct (Forall_inv F) as [x y decl is_ o d Di _]. rewrite (collect_decls_shape _ _ _ _ o d) in H by exact Di.
  apply bind_ok in H as (Sc & _ & H). apply IH in H; [| exact (Forall_inv_tail F)]. eapply grown_trans; [apply add_static_grown | exact H].
Qed.
Definition regular_unit (u : unit_) : Prop := (forall x, In x (u_functions u) -> regular_function (snd x) = true) /\ (forall o, In o (u_statics u) -> regular_object o = true).
Lemma regular_grown u u' : grown u u' -> regular_unit u' -> regular_unit u.
Proof. intros [(a & A) (b & B)] [R1 R2]. rewrite A in R1. rewrite B in R2. split; intros x I; [apply R1 | apply R2]; apply in_app_iff; auto. Qed.
Definition pieces_of (u u' : unit_) (cs : list immc) (ps : list piece) : Prop :=
  cs = flat_map code_of ps /\ Forall good ps /\ u_functions u' = rev (flat_map funs_of ps) ++ u_functions u /\ u_statics u' = u_statics u ++ flat_map vars_of ps.
Lemma pieces_app u v w c1 c2 p1 p2 : pieces_of u v c1 p1 -> pieces_of v w c2 p2 -> pieces_of u w (c1 ++ c2) (p1 ++ p2).
Proof.
  intros (A1 & A2 & A3 & A4) (B1 & B2 & B3 & B4). split; [rewrite flat_map_app; congruence |]. split; [now apply Forall_app |].
  split; [rewrite flat_map_app, rev_app_distr, B3, A3; now rewrite app_assoc | rewrite flat_map_app, B4, A4; now rewrite app_assoc].
Qed.
Lemma decls_pieces f : forall ss st cs st' u u', Forall decl_shape ss -> append_list (gen f) ss st = Ok (cs, st') -> between (u_scopes u) st -> collect_decls ss u = Ok u' -> regular_unit u' ->
  between (u_scopes u') st' /\ exists ps, pieces_of u u' cs ps.
Proof.
  induction ss as [| s ss IH]; intros st cs st' u u' F H B C R; cbn [append_list] in H.
  - injection H as <- <-. injection C as <-. split; [exact B |]. exists []. split; [reflexivity |]. split; [constructor |]. cbn. now rewrite app_nil_r.
  - apply bind_ok in H as ([c1 st1] & H1 & H). apply bind_ok in H as ([c2 st2] & H2 & H). injection H as <- <-. assert (Gr := collect_decls_grown).
    destruct (Forall_inv F) as [x y decl is_ o d Di Ln]. rewrite (collect_decls_shape _ _ _ _ o d) in C by exact Di. apply bind_ok in C as (Sc & G & C).
    set (u1 := add_static o d (hd_error is_) (set_scopes Sc u)) in *. apply Gr in C as Gr'; [| exact (Forall_inv_tail F)]. assert (R1 := regular_grown _ _ Gr' R).
    destruct (init_decl_piece _ _ _ _ _ _ _ _ _ _ _ _ Di Ln H1 B G) as (B1 & ps & E1 & E2 & E3 & E4).
    { intros Ob. apply R1. subst u1. unfold add_static. rewrite Ob. cbn. apply in_app_iff. right. now left. }
    assert (Es : u_scopes u1 = Sc) by (subst u1; unfold add_static; now destruct (dtype_isobject d)).
    destruct (IH _ _ _ u1 u' (Forall_inv_tail F) H2) as (B2 & qs & Q); [now rewrite Es | exact C | exact R |]. split; [exact B2 |]. exists (ps ++ qs). eapply pieces_app; [| exact Q].
    split; [exact E1 |]. split; [exact E2 |]. rewrite E3, E4. subst u1. unfold add_static. destruct (dtype_isobject d); cbn; [split; reflexivity |]. split; [reflexivity | now rewrite app_nil_r].
Qed.
Lemma collect_tag ms nb al n z r u : collect (Srt SRT_TAG_DECL (Some (DTYPE_USTRUCT ms nb al)) (SPName n) z :: r) u = do Sc <- declare_tag n (DTYPE_USTRUCT ms nb al) (u_scopes u); collect r (set_scopes Sc u).
Proof. reflexivity. Qed.
Lemma collect_grown : forall ss u u', Forall item_shape ss -> collect ss u = Ok u' -> grown u u'.
Proof.
  induction ss as [| s ss IH]; intros u u' F H; [injection H as <-; apply grown_refl |]. assert (F' := Forall_inv_tail F). destruct (Forall_inv F) as [ms nb al n z | x y ds Fd | x y ps t n z bx by_ body Ib]; cbn [collect] in H; apply bind_ok in H as (v & G & H); apply IH in H; try exact F'.
  - exact H.
  - eapply grown_trans; [eapply collect_decls_grown; [exact Fd | exact G] | exact H].
  - eapply grown_trans; [| exact H]. split; [eexists [_]; reflexivity | exists []; cbn; now rewrite app_nil_r].
Qed.
Lemma items_pieces f : forall ss st cs st' u u', Forall item_shape ss -> append_list (gen f) ss st = Ok (cs, st') -> between (u_scopes u) st -> collect ss u = Ok u' -> regular_unit u' ->
  exists ps, pieces_of u u' cs ps.
Proof.
  induction ss as [| s ss IH]; intros st cs st' u u' F H B C R; cbn [append_list] in H.
  - injection H as <- <-. injection C as <-. exists []. split; [reflexivity |]. split; [constructor |]. cbn. now rewrite app_nil_r.
  - apply bind_ok in H as ([c1 st1] & H1 & H). apply bind_ok in H as ([c2 st2] & H2 & H). injection H as <- <-. assert (F' := Forall_inv_tail F).
    destruct f as [| f]; [discriminate |]. cbn [gen] in H1. unfold gen_body in H1.
    destruct (Forall_inv F) as [ms nb al n z | x y ds Fd | x y ps t n z bx by_ body Ib]; cbn [srt_type] in H1; cbn [collect] in C; apply bind_ok in C as (v & G & C).
    + unfold gen_tag_decl in H1. cbn [dty srt_dtype deref bind srt_name srt_payload] in H1. apply bind_ok in H1 as (tg & Ht & H1). injection H1 as <- <-.
      unfold declare_tag in G. destruct B as [[E1 E2] Bs Bl Bt]. rewrite E2, Ht in G. cbn [bind] in G. injection G as <-.
      edestruct (fun B => IH _ _ _ _ u' F' H2 B C R) as (qs & Q).
      * split; [split; [exact E1 | reflexivity] | exact Bs | exact Bl |]. cbn. apply define_struct_tail in Ht as (? & ? & ? & _ & ->). discriminate.
      * exists qs. exact Q.
    + cbn [srt_children] in H1. destruct (decls_pieces _ _ _ _ _ _ _ Fd H1 B G) as (B1 & ps & P); [eapply regular_grown; [eapply collect_grown; [exact F' | exact C] | exact R] |].
      destruct (IH _ _ _ _ u' F' H2 B1 C R) as (qs & Q). exists (ps ++ qs). eapply pieces_app; eassumption.
    + set (fn := mkfunc ps body v) in *. assert (Rf : regular_function fn = true).
      { apply (proj1 R (n, fn)). apply collect_grown in C as [(l & ->) _]; [| exact F']. apply in_app_iff. right. now left. }
      destruct (function_piece _ _ _ _ _ _ _ _ _ _ _ _ _ _ _ H1 B G Rf Ib) as (B1 & _).
      destruct (IH _ _ _ (mkunit v ((n, fn) :: u_functions u) (u_statics u)) u' F' H2 B1 C R) as (qs & Q). exists ([PFun n fn c1] ++ qs). eapply pieces_app; [| exact Q].
      split; [cbn; now rewrite app_nil_r |]. split; [| cbn; split; [reflexivity | now rewrite app_nil_r]]. constructor; [| constructor].
      exists f, x, y, z, t, bx, by_, st, st1, (u_scopes u). auto.
Qed.

Lemma unit_shape E items ss E' : unit_items E items ss E' -> Forall item_shape ss.
Proof.
  induction 1 as [| E items s cs E' K U IH | E a items s E1 cs E' T F U IH | E a items s E1 cs E' T F U IH]; constructor; try exact IH.
  - destruct K as [K | K].
    + destruct s as [t d p l]. destruct t; try discriminate K. destruct d as [d |]; [| discriminate K]. destruct d; try discriminate K. destruct p; try discriminate K. constructor.
    + apply string_shape in K as (id & str & n & m & _ & ->). constructor. constructor; [| constructor]. econstructor; [apply di_string | cbn; lia].
  - destruct F as [E t p ts q specs da tb qb items' cs0 base E1 n ps ret E2 syms1 syms2 syms3 body E3 syms4 E4 D0 D1 D2 D3 D4 D5 D6 B D7 D8].
    constructor. exact (proj2 (stmt_inside (mkcontext false false (Some ret))) _ _ _ _ B).
  - destruct F as [? t p ts q l td specs base E1' D SP | ? t p ts q l tl ql ds cs1 td specs base E1' ss E2 D SP I]; constructor; [constructor |].
    clear - I. induction I; constructor; try assumption; econstructor; try (apply di_name); cbn; lia.
Qed.
Theorem program_pieces a s C u : resolve a = Ok s -> immcgen s = Ok C -> translation_unit s = Ok u -> regular_program s = true ->
  exists ps, C = flat_map code_of ps /\ Forall good ps /\ u_functions u = rev (flat_map funs_of ps) /\ u_statics u = flat_map vars_of ps.
Proof.
  intros R I T Rp. apply resolve_sound in R as (cs & E' & -> & U & _). unfold immcgen in I. apply bind_ok in I as ([c st'] & H & I). injection I as <-.
  cbn [gen] in H. unfold gen_body in H. cbn [srt_type stmt_node srt_children] in H. unfold translation_unit in T. cbn [stmt_node] in T.
  unfold regular_program in Rp. unfold translation_unit in Rp. cbn [stmt_node] in Rp. rewrite T in Rp. apply andb_prop in Rp as [R1 R2]. rewrite forallb_forall in R1, R2.
  destruct (fun B R => items_pieces _ _ _ _ _ _ _ (unit_shape _ _ _ _ U) H B T R) as (ps & P1 & P2 & P3 & P4).
  - split; [split; reflexivity | eexists; split; reflexivity | cbn; lia | discriminate].
  - split; assumption.
  - exists ps. cbn in P3, P4. rewrite app_nil_r in P3. auto.
Qed.
