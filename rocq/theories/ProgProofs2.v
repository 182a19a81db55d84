(** The code of a program does what the program does *)
From Coq Require Import FMapPositive.
From Verif Require Import Base SrtModel ResolverModel ImmcModel ImmcgenModel X64Isa X64Decode OpSpec TypeSpec TypeProofs CSem CProgram ImmcSem GenSpec ElabProofs GenProofs IsaProofs LabelSpec LabelProofs3 ExprProofs ExprProofs2 StmtProofs StmtProofs2 StmtProofs3 ImmcProgram FunProofs ProgSpec DataProofs ProgProofs.
From Verif Require Machine.
Open Scope Z_scope.

(** * Steps with another caller *)
Section Lift.
Variables (callA : caller) (callB : nat -> caller) (labA labB : name -> option Z) (frame : Z) (params : list (size * Z)) (C : list immc).
Hypothesis Lift : forall a vs W r, callA a vs W = Ok r -> exists k0, forall k, (k0 <= k)%nat -> callB k a vs W = Ok r.
Hypothesis Labs : forall n, labB n = labA n.
Lemma iaddress_lab q o : iaddress labB frame q o = iaddress labA frame q o.
Proof. destruct o; try reflexivity. cbn. apply Labs. Qed.
Lemma istep_lab cl c q : istep cl labB frame params c q = istep cl labA frame params c q.
Proof.
  destruct c as [t d f g | | | t v n]; try reflexivity.
  destruct t; try reflexivity; destruct d as [d |]; try reflexivity; destruct f as [f |]; try reflexivity; destruct g as [g |]; try reflexivity; cbn [istep]; rewrite ?iaddress_lab; try reflexivity.
Qed.
Lemma istep_lift c q : istep callA labA frame params c q <> IStuck -> exists k0, forall k, (k0 <= k)%nat -> istep (callB k) labB frame params c q = istep callA labA frame params c q.
Proof.
  intros N. assert (X : (exists d f n s, c = IMMC_INST IMMC_INST_CALL d (Some f) (Some (IMMC_OPERAND_INT s n))) \/ forall c1 c2, istep c1 labA frame params c q = istep c2 labA frame params c q).
  { destruct c as [t d f g | | | t v n]; try (right; reflexivity). destruct t; try (right; reflexivity). destruct f as [f |]; [| right; intros; destruct d; reflexivity]. destruct g as [g |]; [| right; intros; destruct d; reflexivity].
    destruct g; try (right; intros; destruct d; reflexivity). left. eauto. }
  destruct X as [(d & f & n & s & ->) | X].
  - destruct d as [d |]; cbn [istep] in N |- *; (destruct (iaddress labA frame q f) as [a |] eqn:Ea; [| congruence]; destruct (i_args q) as [| slots r] eqn:Es; [congruence |]; destruct (collect_args slots _ 0) as [vs |] eqn:Ec; [| congruence];
    destruct (callA a vs (i_world q)) as [[x W] | | | |] eqn:El; try congruence; destruct (Lift _ _ _ _ El) as (k0 & K); exists k0; intros k Hk; rewrite iaddress_lab, Ea, (K k Hk); reflexivity).
  - exists 0%nat. intros k _. rewrite istep_lab. apply X.
Qed.
Lemma imove_lift p q : imove callA labA frame params C p q <> IWrong -> exists k0, forall k, (k0 <= k)%nat -> imove (callB k) labB frame params C p q = imove callA labA frame params C p q.
Proof.
  unfold imove. intros N. destruct (nth_error C p) as [c |]; [| congruence]. destruct (istep_lift c q) as (k0 & K); [intros E; rewrite E in N; congruence |]. exists k0. intros k Hk. now rewrite K.
Qed.
Lemma irun_lift p q p' q' q'' : reaches callA labA frame params C p q p' q' -> imove callA labA frame params C p' q' = IEnd q'' ->
  exists k0, forall k m, (k0 <= k)%nat -> (k0 <= m)%nat -> irun (callB k) labB frame params m C p q = IEnd q''.
Proof.
  induction 1 as [pc q | pc q pc1 q1 pc2 q2 M R IH]; intros E.
  - destruct (imove_lift pc q) as (k0 & K); [congruence |]. exists (S k0). intros k m Hk Hm. destruct m as [| m]; [lia |]. cbn [irun]. rewrite K, E by lia. reflexivity.
  - destruct (IH E) as (k1 & K1). destruct (imove_lift pc q) as (k0 & K); [congruence |]. exists (S (k0 + k1)). intros k m Hk Hm. destruct m as [| m]; [lia |]. cbn [irun]. rewrite K, M by lia. apply K1; lia.
Qed.
End Lift.

(** * What is in the pieces *)
Definition data_in (p : piece) : list (name * list Z) := match p with PFun _ _ _ => [] | PVar o _ l => [(static_name o, l)] end.
Lemma functions_skip l : (forall c, In c l -> ~ entry c) -> forall r, functions (l ++ r) = functions r.
Proof.
  induction l as [| c l IH]; intros N r; [reflexivity |]. cbn [app functions]. rewrite IH by (intros x I; apply N; now right). destruct c as [ | | | t v n]; try reflexivity. destruct t; try reflexivity. exfalso. apply (N _ (or_introl eq_refl)). exists v, n. now left.
Qed.
Lemma variables_skip l : (forall c, In c l -> ~ entry c) -> forall r, variables (l ++ r) = variables r.
Proof.
  induction l as [| c l IH]; intros N r; [reflexivity |]. cbn [app variables]. rewrite IH by (intros x I; apply N; now right). destruct c as [ | | | t v n]; try reflexivity. destruct t; try reflexivity. exfalso. apply (N _ (or_introl eq_refl)). exists v, n. now right.
Qed.
Lemma data_no_entry : forall ds l, all_data ds = Some l -> forall c, In c ds -> ~ entry c.
Proof.
  induction ds as [| x ds IH]; intros l H c I; [destruct I |]. cbn [all_data] in H. destruct (data_of x) as [b |] eqn:E; [| discriminate H]. destruct (all_data ds) as [k |]; [| discriminate H].
  destruct I as [<- | I]; [| now apply (IH k)]. intros (v & n & [-> | ->]); discriminate E.
Qed.
Lemma fun_shape n f cs : fun_code n f cs -> exists nb tl, cs = IMMC_LABEL IMMC_LABEL_FUNCTION IMMC_VIS_GLOBAL n :: IMMC_INST IMMC_INST_ENTER None (Some (IMMC_OPERAND_INT IMMC_SUFFIX_QUAD (new_signed IInt nb))) None :: tl
    /\ (forall c, In c tl -> ~ entry c)
    /\ forall Sc2 Sc3 Sc4, function_scopes f = Ok Sc2 -> param_scopes (f_params f) Sc2 = Ok Sc3 -> afters (f_body f) Sc3 = Ok Sc4 -> nb = frame_size Sc4.
Proof.
  intros (fuel & x & y & z & t & bx & by_ & st & st' & Sc0 & H & B & G & I & R). destruct f as [ps body Sc1]. cbn [f_params f_body f_scopes] in *.
  destruct (function_piece _ _ _ _ _ _ _ _ _ _ _ _ _ _ _ H B G R I) as (_ & X). exact X.
Qed.
Lemma take_none ps : Forall good ps -> take_data (flat_map code_of ps) = [].
Proof.
  intros F. destruct ps as [| p ps]; [reflexivity |]. apply Forall_inv in F. destruct p as [n f cs | o ds l]; [| reflexivity]. destruct (fun_shape _ _ _ F) as (nb & tl & -> & _). reflexivity.
Qed.
Lemma pieces_functions : forall ps, Forall good ps -> functions (flat_map code_of ps) = map fst (flat_map funs_of ps).
Proof.
  induction 1 as [| p ps G F IH]; [reflexivity |]. cbn [flat_map]. rewrite map_app, <- IH. destruct p as [n f cs | o ds l]; cbn [code_of funs_of map app fst].
  - destruct (fun_shape _ _ _ G) as (nb & tl & -> & N & _). cbn [app functions]. now rewrite functions_skip.
  - cbn [functions]. apply functions_skip. eapply data_no_entry, G.
Qed.
Lemma pieces_variables : forall ps, Forall good ps -> variables (flat_map code_of ps) = flat_map data_in ps.
Proof.
  induction 1 as [| p ps G F IH]; [reflexivity |]. cbn [flat_map]. destruct p as [n f cs | o ds l]; cbn [code_of data_in app].
  - destruct (fun_shape _ _ _ G) as (nb & tl & -> & N & _). cbn [app variables]. now rewrite variables_skip.
  - cbn [variables]. destruct G as (D & _). rewrite variables_skip, (take_all _ l), (take_none _ F), app_nil_r, IH; [reflexivity | exact D |]. eapply data_no_entry, D.
Qed.

(** * Static objects *)
Lemma data_length o ds l : var_code o ds l -> 0 <= sizeof (o_type o) -> Z.of_nat (length l) = sizeof (o_type o).
Proof. intros (_ & Z0 & I) N. destruct (o_init o) as [i |]; [apply (I i eq_refl) |]. rewrite Z0, repeat_length by reflexivity. lia. Qed.
Lemma pieces_placed : forall ps a, Forall good ps -> Forall (fun o => 0 <= sizeof (o_type o)) (flat_map vars_of ps) -> place_data (flat_map data_in ps) a = place_statics (flat_map vars_of ps) a.
Proof.
  induction ps as [| p ps IH]; intros a G F; [reflexivity |]. assert (G' := Forall_inv_tail G). apply Forall_inv in G. destruct p as [n f cs | o ds l]; cbn [flat_map data_in vars_of app] in *; [now apply IH |].
  cbn [place_data place_statics]. rewrite (data_length _ _ _ G (Forall_inv F)). f_equal. apply IH; [exact G' | exact (Forall_inv_tail F)].
Qed.
Lemma find_placed n l : find_data n l = find_static n l.
Proof. induction l as [| [m a] l IH]; [reflexivity |]. cbn. now rewrite IH. Qed.

Section Unit.
Variables (exts : list name) (u : unit_).
Lemma initial_sizes : forall l a W W', initial exts u (combine l (map snd (place_statics l a))) W = Ok W' ->
  Forall (fun o => 0 <= sizeof (o_type o)) l /\ (0 <= a -> forall n b, find_static n (place_statics l a) = Some b -> a <= b <= Machine.HEAP_BASE).
Proof.
  induction l as [| o l IH]; intros a W W' H; cbn [place_statics map combine initial] in H; [split; [constructor | intros _ n b F; discriminate F] |].
  cbn [snd] in H. cbn [combine] in H. destruct (_ || _) eqn:Sz in H; [discriminate H |]. apply Bool.orb_false_iff in Sz as [S1 S2]. apply bind_ok in H as (W1 & _ & H). apply IH in H as [H1 H2].
  split; [constructor; [lia | exact H1] |]. intros A n b F. cbn [place_statics find_static] in F. destruct (name_eqb n _); [injection F as <-; lia |].
  assert (0 <= 16 * ((sizeof (o_type o) + 15) / 16)) by (assert (0 <= (sizeof (o_type o) + 15) / 16) by (apply Z.div_pos; lia); lia).
  apply H2 in F; lia.
Qed.
Lemma initial_fill : places_ok (places_at exts u 0) -> forall ps a W W', Forall good ps -> 0 <= a ->
  initial exts u (combine (flat_map vars_of ps) (map snd (place_statics (flat_map vars_of ps) a))) W = Ok W' -> W' = set_wmem W (fill (flat_map data_in ps) a (w_mem W)).
Proof.
  intros PP. induction ps as [| p ps IH]; intros a W W' G A H.
  - injection H as <-. cbn. now destruct W.
  - assert (G' := Forall_inv_tail G). apply Forall_inv in G. destruct p as [n f cs | o ds l]; cbn [flat_map data_in vars_of app] in *; [now apply IH |].
    cbn [place_statics map combine initial snd] in H. destruct (_ || _) eqn:Sz in H; [discriminate H |]. apply Bool.orb_false_iff in Sz as [S1 S2]. assert (Ln := data_length _ _ _ G ltac:(lia)).
    apply bind_ok in H as (W1 & H1 & H). cbn [fill]. rewrite Ln. assert (Ea : W1 = set_wmem W (poke_list (w_mem W) a l)).
    { destruct G as (_ & Gz & Gi). destruct (o_init o) as [i |].
      - rewrite (proj2 (Gi i eq_refl) _ _ _ _ _ _ PP eq_refl A H1 (w_mem W)); [reflexivity |]. cbn [w_mem set_wmem]. rewrite zero_list. do 2 f_equal. lia.
      - injection H1 as <-. rewrite zero_list, <- Gz by reflexivity. reflexivity. }
    apply IH in H; [| exact G' |].
    + rewrite H, Ea. reflexivity.
    + assert (0 <= (sizeof (o_type o) + 15) / 16) by (apply Z.div_pos; lia). lia.
Qed.
End Unit.

Lemma index_of_range n : forall l k i, Machine.index_of n l k = Some i -> k <= i < k + Z.of_nat (length l).
Proof. induction l as [| m l IH]; intros k i H; cbn [Machine.index_of] in H; [discriminate H |]. cbn [length]. destruct (name_eqb n m); [injection H as <-; lia |]. apply IH in H. lia. Qed.

Section Whole.
Variables (exts : list name) (ext : name -> list Z -> world -> option (Z * world)) (u : unit_) (C : list immc) (ps : list piece).
Hypothesis (NL : NoDup (labels C)) (Cp : C = flat_map code_of ps) (Gd : Forall good ps) (Fn : u_functions u = rev (flat_map funs_of ps)) (St : u_statics u = flat_map vars_of ps).
Hypothesis Sizes : Forall (fun o => 0 <= sizeof (o_type o)) (u_statics u).
Lemma names_same : fnames C = map fst (u_functions u).
Proof. unfold fnames. now rewrite Cp, pieces_functions, Fn, map_rev. Qed.
Lemma labels_same n : ilabel exts C n = label exts u n.
Proof. unfold ilabel, label, statics. rewrite names_same, find_placed, Cp, pieces_variables, pieces_placed, <- St by (rewrite ?St in Sizes; assumption). reflexivity. Qed.
Hypothesis PP : forall sp, places_ok (places_at exts u sp).

Lemma find_piece n f : In (n, f) (u_functions u) -> exists cs, In (PFun n f cs) ps.
Proof. rewrite Fn, <- in_rev. intros I. apply in_flat_map in I as (p & Ip & I). destruct p as [m g cs | o ds l]; [| destruct I]. destruct I as [E | []]. injection E as -> ->. eauto. Qed.
Lemma piece_at p : In p ps -> exists i, code_at C i (code_of p).
Proof.
  intros I. apply in_split in I as (l1 & l2 & E). exists (length (flat_map code_of l1)), (flat_map code_of l1), (flat_map code_of l2). rewrite Cp, E, flat_map_app. cbn [flat_map]. now split.
Qed.
Lemma call_ok : forall n sp a args W r, call exts ext u n sp a args W = Ok r -> exists k0, forall k, (k0 <= k)%nat -> icall exts ext C k n sp a args W = Ok r.
Proof.
  induction n as [| n IH]; intros sp a args W r H; [discriminate H |]. cbn [call icall] in H |- *. destruct (Machine.EXT_BASE <=? a); [exists 0%nat; auto |].
  rewrite names_same. destruct (a <? Machine.CODE_BASE); [discriminate H |]. rewrite nth_error_map. destruct (nth_error (u_functions u) _) as [[nm f] |] eqn:Nf; [| discriminate H]. cbn [option_map fst].
  apply nth_error_In, find_piece in Nf as (cs & I). destruct (piece_at _ I) as (i & A). cbn [code_of] in A. apply (proj1 (Forall_forall _ _) Gd) in I. cbn [good] in I.
  destruct (fun_shape _ _ _ I) as (nb & tl & Ecs & _ & Fr). apply bind_ok in H as (Sc2 & F & H). apply bind_ok in H as ([Sc3 W1] & B & H). apply bind_ok in H as (Sc4 & Af & H). apply bind_ok in H as ([fl W'] & E & H).
  specialize (Fr Sc2 Sc3 Sc4 F (bind_params_scopes _ _ _ _ _ _ _ B) Af).
  assert (La : label_at nm C = Some i) by (rewrite Ecs in A; exact (label_here C NL _ _ _ _ _ A)).
  assert (Fo : frame_of C i = Some (frame_size Sc4)).
  { destruct A as (pre & post & Ec & Lp). unfold frame_of. rewrite Ec, Ecs, nth_error_app2 by lia. replace (S i - length pre)%nat with 1%nat by lia. cbn [nth_error app]. rewrite Fr. reflexivity. }
  rewrite La, Fo. destruct I as (fuel & x & y & z & t & bx & by_ & st & st' & Sc0 & Hg & Bt & G & Ib & R). destruct f as [prm body Sc1]. cbn [f_params f_body f_scopes] in *.
  assert (Ef : fl = Normal \/ exists v, fl = Return v) by (destruct fl; try discriminate H; eauto).
  assert (Ri : items_regular Sc3 body = true).
  { unfold regular_function in R. rewrite F in R. cbn [bind f_params f_body] in R. change (parameters prm Sc2) with (param_scopes prm Sc2) in R. rewrite (bind_params_scopes _ _ _ _ _ _ _ B) in R. exact R. }
  destruct Bt as [Be (sc & Bs & _) Bl _].
  destruct (function_ok (call exts ext u n (sp - frame_size Sc4 - 64)) (places_at exts u sp) args C NL (PP sp) _ _ _ _ _ _ _ _ _ _ _ _ _ _ _ _ _ W W1 n fl W' i (mkist (fun _ => None) [] None W) Hg Be ltac:(rewrite Bs; reflexivity) Bl G F B Ri E Ef A eq_refl eq_refl) as (q' & (j & G1 & G2) & Wq & Rq).
  destruct (irun_lift (call exts ext u n (sp - frame_size Sc4 - 64)) (fun k => icall exts ext C k n (sp - frame_size Sc4 - 64)) (label exts u) (ilabel exts C) sp args C) with (p := i) (q := mkist (fun _ => None) [] None W) (p' := j) (q' := q') (q'' := q') as (k0 & K).
  - intros. apply IH. assumption.
  - apply labels_same.
  - exact G1.
  - exact G2.
  - exists k0. intros k Hk. rewrite K by lia. rewrite Rq, Wq. destruct Ef as [-> | [[[] |] ->]]; cbn [value_of]; exact H.
Qed.
End Whole.

Theorem program_does a s C exts ext fuel r : resolve a = Ok s -> plain_names s -> immcgen s = Ok C -> regular_program s = true ->
  run_program exts ext fuel s = Ok r -> exists k0, forall k, (k0 <= k)%nat -> irun_program exts ext C k fuel = Ok r.
Proof.
  intros Hr Pn Hi R Ru. unfold run_program in Ru. apply bind_ok in Ru as (u & Hu & Ru). destruct (program_pieces _ _ _ _ Hr Hi Hu R) as (ps & Cp & Gd & Fn & St). destruct (program_labels _ _ _ Hr Pn Hi) as [NL _].
  unfold run_unit in Ru. destruct (_ || _) eqn:Ad in Ru; [discriminate Ru |]. apply Bool.orb_false_iff in Ad as [A1 A2]. cbv zeta in Ru. apply bind_ok in Ru as (W0 & I0 & Ru).
  unfold statics in I0. destruct (initial_sizes exts u _ _ _ _ I0) as [Sz Rg].
  assert (PP : forall sp, places_ok (places_at exts u sp)).
  { intros sp. split; [| reflexivity]. intros n x Hx. cbn [places_at p_label] in Hx. unfold label, statics in Hx. destruct (find_static n _) as [b |] eqn:Fs.
    - injection Hx as <-. apply Rg in Fs; [| cbv; discriminate]. cbv [Machine.DATA_BASE Machine.HEAP_BASE] in Fs. lia.
    - destruct (Machine.index_of n (map fst (u_functions u)) 0) as [k |] eqn:Ix.
      + assert (x = Machine.CODE_BASE + k) as -> by congruence. clear Hx. apply index_of_range in Ix. rewrite map_length in Ix. apply Z.ltb_ge in A1. cbv [Machine.EXT_BASE Machine.CODE_BASE] in A1 |- *. clear -A1 Ix. lia.
      + destruct (Machine.index_of n exts 0) as [k |] eqn:Iy; [| discriminate Hx]. assert (x = Machine.EXT_BASE + k) as -> by congruence. clear Hx. apply index_of_range in Iy. apply Z.ltb_ge in A2. cbv [Machine.EXT_BASE] in A2 |- *. clear -A2 Iy. lia. }
  rewrite St in I0. assert (F0 := initial_fill exts u (PP 0) ps Machine.DATA_BASE _ _ Gd ltac:(cbv; discriminate) I0). cbn [w_mem] in F0.
  destruct (label exts u (bytes "main")) as [am |] eqn:Lm; [| discriminate Ru]. apply bind_ok in Ru as ([x W'] & Ca & Ru).
  destruct (call_ok exts ext u C ps NL Cp Gd Fn St Sz PP _ _ _ _ _ _ Ca) as (k0 & K). exists k0. intros k Hk. unfold irun_program. cbv zeta.
  rewrite (labels_same exts u C ps), Lm by assumption. rewrite Cp at 2. rewrite pieces_variables by exact Gd. rewrite F0 in K. unfold set_wmem in K. cbn in K. cbn. rewrite K by exact Hk. cbn. exact Ru.
Qed.
