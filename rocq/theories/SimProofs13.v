(** Proofs for C48: whole programs *)
From Coq Require Import Lia ZifyBool.
From Verif Require Import Base SrtModel ResolverModel ElabProofs TypeSpec ImmcModel ImmcgenModel LabelSpec RegallocModel FrontModel TypeProofs X64Model X64genModel X64Decode OpSpec CSem CProgram ImmcSem IsaProofs IsaMemProofs X64genProofs ProgSpec RegSpec OrderSpec CallSpec MarkSpec SimSpec SimCallSpec SimProgSpec SimProofs5 SimProofs7 SimProofs12 X64Isa.
Local Open Scope Z_scope.

Lemma choose_names {A B} (Q : name -> A -> B -> Prop) (a0 : A) (b0 : B) : forall l : list name, (forall nm, In nm l -> exists a b, Q nm a b) -> exists (fa : name -> A) (fb : name -> B), forall nm, In nm l -> Q nm (fa nm) (fb nm).
Proof.
  induction l as [| n l IH]; intros H; [exists (fun _ => a0), (fun _ => b0); intros nm [] |]. destruct IH as (fa & fb & J); [intros nm I; apply H; now right |]. destruct (H n (or_introl eq_refl)) as (a & b & Qn).
  exists (fun x => if name_eqb x n then a else fa x), (fun x => if name_eqb x n then b else fb x). intros nm I. destruct (name_eqb nm n) eqn:E; [apply name_eqb_eq in E; subst nm; exact Qn |]. destruct I as [<- | I]; [assert (name_eqb n n = true) by (now apply name_eqb_eq); congruence |]. now apply J.
Qed.
Lemma not_in_regions Rc M b n bottom sp : regions M = Rc -> free_below Rc bottom sp -> bottom <= b < sp -> 0 < n -> ~ accessible M b n.
Proof. intros <- H B N (_ & [lo hi] & I & L & U). cbn in L, U. apply (H lo hi b I); lia. Qed.
Lemma in_stack M b n bottom top : In (bottom, top) (regions M) -> 0 <= bottom -> bottom <= b -> b + n <= top -> accessible M b n.
Proof. intros I P L U. split; [lia |]. exists (bottom, top). auto. Qed.
(** the state after a call instruction *)
Lemma push_exists m v : in_range m -> 8 <= rget (regs m) RSP -> accessible (mem m) (rget (regs m) RSP - 8) 8 -> exists m', pushes (rget (regs m) RSP - 8) v m m' /\ in_range m'.
Proof.
  intros R L A. destruct (store_written _ S8 _ v A) as (M' & _ & W). exists (mkstate (rset (regs m) RSP (rget (regs m) RSP - 8)) (fl m) M'). split.
  - split; [intros q N; cbn [regs]; now rewrite rget_rset_other by congruence |]. split; [cbn [regs]; now rewrite rget_rset_same |]. split; [reflexivity | exact W].
  - intros q. cbn [regs]. destruct (reg_dec q RSP) as [-> | N]; [rewrite rget_rset_same; specialize (R RSP); lia | rewrite rget_rset_other by congruence; apply R].
Qed.
Lemma pop_exists m v : in_range m -> rget (regs m) RSP + 8 < 2 ^ 64 -> holds (mem m) (rget (regs m) RSP) 8 v -> exists m', pops v m m' /\ in_range m'.
Proof.
  intros R L H. exists (mkstate (rset (regs m) RSP (rget (regs m) RSP + 8)) (fl m) (mem m)). split.
  - split; [intros q N; cbn [regs]; now rewrite rget_rset_other by congruence |]. split; [exact H |]. split; [cbn [regs]; now rewrite rget_rset_same | reflexivity].
  - intros q. cbn [regs]. destruct (reg_dec q RSP) as [-> | N]; [rewrite rget_rset_same; specialize (R RSP); lia | rewrite rget_rset_other by congruence; apply R].
Qed.

Theorem source_program src s C n code lives X u : front src = Ok s -> immcgen s = Ok C -> regular_program s = true -> pointers_last s = true -> few_arguments s ->
  allocate_regs n C = Ok (code, lives) -> x64gen code lives = Ok X -> translation_unit s = Ok u -> (forall nm f, In (nm, f) (u_functions u) -> modest_function C code nm) ->
  exists (size : name -> Z) (saved : name -> list xreg),
  (forall nm f, In (nm, f) (u_functions u) -> exists F body w, x64_function X F /\ function_code F (size nm) (saved nm) body /\ hd_error F = Some (X64_LABEL X64_LABEL_FUNCTION w nm))
  /\ ((forall nm f, In (nm, f) (u_functions u) -> size nm < 2 ^ 31 /\ (length (saved nm) <= 1)%nat) ->
     forall lab strings width site ext outer bottom top Rg cl,
     (forall n a, lab n = Some a -> 0 <= a < 2 ^ 64) -> (forall i, strings i = lab (create_sliteral_label i)) -> results_fit C lab width -> (forall F p, 0 <= site F p < 2 ^ 64) ->
     0 <= bottom -> top < 2 ^ 64 -> In (bottom, top) Rg ->
     (forall sp Rc, sp <= top -> free_below Rc bottom sp -> calls_do ext (fun _ => outer) width sp Rc Rg) ->
     program_meaning u lab strings width bottom (fun nm => Z.max 0 (size nm)) (fun nm => frame_depth (size nm) (saved nm)) ext cl ->
     forall n G sp Rc, sp <= top -> free_below Rc bottom sp -> calls_do (cl n sp) (machine_call X lab site outer n G) width sp Rc Rg).
Proof.
  intros Hf Hi R Pl Fa Al Xg Hu Mo.
  set (Q := fun nm (size : Z) (saved : list xreg) => exists F body w, x64_function X F /\ function_code F size saved body /\ hd_error F = Some (X64_LABEL X64_LABEL_FUNCTION w nm)
    /\ (forall f, In (nm, f) (u_functions u) -> (length saved <= 1)%nat -> forall cl K width P k args W value W' m, (forall n a, p_label P n = Some a -> 0 <= a < 2 ^ 64) -> (forall i, p_string P i = p_label P (create_sliteral_label i)) ->
     calls_do cl K width (rget (regs m) RSP - frame_depth size saved) (regions (w_mem W)) (regions (mem m)) -> results_fit C (p_label P) width -> argument_room (w_mem W) (mem m) (rget (regs m) RSP - frame_depth size saved) ->
     function_does cl P k f args W value W' -> entered (w_mem W) args (p_frame P) size saved m ->
     exists p m', steps_with K (p_label P) F (0%nat, m) (p, m') /\ returning (p_label P) F p m' /\ returns_with (w_mem W) (w_mem W') value size saved m m')).
  destruct (choose_names Q 0 [] (List.map fst (u_functions u))) as (size & saved & Ch).
  { intros nm I. apply in_map_iff in I as ([nm' f] & E & I). cbn in E. subst nm'. destruct (source_calls _ _ _ _ _ _ _ _ _ Hf Hi R Pl Fa Al Xg Hu (Mo _ _ I)) as (F & size & saved & body & w & A1 & A2 & A3 & A4). exists size, saved, F, body, w. split; [exact A1 |]. split; [exact A2 |]. split; [exact A3 | exact A4]. }
  assert (Ch' : forall nm f, In (nm, f) (u_functions u) -> Q nm (size nm) (saved nm)) by (intros nm f I; apply Ch; apply in_map_iff; exists (nm, f); auto). clear Ch.
  exists size, saved. split; [intros nm f I; destruct (Ch' _ _ I) as (F & body & w & A1 & A2 & A3 & _); exists F, body, w; auto |].
  intros Few lab strings width site ext outer bottom top Rg cl Hl Hs Fit Si Bo To Ig Ext Mean. induction n0 as [| d IH]; intros G sp Rc Ts Fb.
  - intros a vs W x W' m E. destruct (Mean _ _ _ _ _ _ _ E) as [E' | (n' & N & _)]; [| discriminate N]. intros H1 H2 H3 H4 H5 H6 H7. destruct (Ext sp Rc Ts Fb a vs W x W' m E' H1 H2 H3 H4 H5 H6 H7) as (Y1 & Y2). split; [exact Y1 |]. exact Y2.
  - intros a vs W x W' m E Ra By Ec Eg Es Se Ar. destruct (Mean _ _ _ _ _ _ _ E) as [E' | (n' & N & nm & f & La & If & Rm & Rw & Do)].
    { destruct (Ext sp Rc Ts Fb a vs W x W' m E' Ra By Ec Eg Es Se Ar) as (Y1 & Y2). split; [exact Y1 |]. intros p. destruct (Y2 p) as (m' & Y3 & Y4). exists m'. split; [left; exact Y3 | exact Y4]. }
    injection N as <-. split; [congruence |]. intros p. destruct (Few _ _ If) as (Fs & Fv). destruct (Ch' _ _ If) as (F & body & w & XF & FC & HF & Run). specialize (Run f If Fv).
    set (sz := size nm) in *. set (sv := saved nm) in *. assert (FD : 8 + Z.max 0 sz + 8 * Z.of_nat (length sv) <= frame_depth sz sv) by (unfold frame_depth; destruct (Nat.odd _); lia).
    destruct (push_exists m (site G p) Ra) as (m1 & Pu & R1); [lia | rewrite Es; eapply in_stack; [rewrite Eg; exact Ig | lia | lia | lia] |]. rewrite Es in Pu. assert (Pu' := Pu). destruct Pu' as (P1 & P2 & _ & P3). assert (Eg1 : regions (mem m1) = Rg) by (rewrite (proj1 P3); exact Eg).
    assert (Fr : forall b, bottom <= b < sp -> ~ accessible (w_mem W) b 1) by (intros b B; eapply not_in_regions; [exact Ec | exact Fb | exact B | lia]).
    assert (K1 : forall b, 0 <= b -> b < sp - 8 \/ sp <= b -> peek (mem m1) b = peek (mem m) b) by (intros b P H; rewrite (proj2 P3) by exact P; destruct (_ && _) eqn:Y; [lia | reflexivity]).
    set (M := mkmem (cells (mem m1)) ((sp - 16 - Z.max 0 sz, sp - 16) :: regions (w_mem W)) (junk (mem m1))).
    assert (Pm : forall b, peek M b = peek (mem m1) b) by reflexivity.
    assert (Am : forall b k, accessible M b k -> accessible (w_mem W) b k \/ 0 <= b /\ sp - 16 - Z.max 0 sz <= b /\ b + k <= sp - 16) by (intros b k (A1 & r & [<- | I] & A2); [right; cbn in A2; lia | left; split; [exact A1 |]; exists r; auto]).
    destruct Se as (Se1 & Se2).
    assert (Wo : with_object (w_mem W) (sp - 16 - Z.max 0 sz) (sp - 16) M).
    { split; [reflexivity |]. intros b Ab. rewrite Pm, K1; [now apply Se2 | apply Ab |]. destruct (Z.lt_ge_cases b (sp - 8)); [now left | right]. destruct (Z.lt_ge_cases b sp); [| assumption]. destruct (Fr b ltac:(lia) Ab). }
    destruct (Do M Wo) as (k & value & Wf & Fd & Pk & _ & _ & Va).
    destruct (Run (cl d (sp - 8 - frame_depth sz sv)) (machine_call X lab site outer d F) width (mkplaces lab strings (sp - 16)) k vs (set_wmem W M) value Wf m1) as (p2 & m2 & St & Rt & [Q1 Q2 Q3 Q4 Q5 Q6 Q7 Q8]).
    + exact Hl.
    + exact Hs.
    + rewrite P2, Eg1. apply IH; [lia |]. intros lo hi b I L B. destruct I as [I | I]; [injection I as <- <-; lia |]. rewrite Ec in I. apply (Fb lo hi b I L). lia.
    + exact Fit.
    + rewrite P2. split; [lia |]. split; [intros j J; eapply in_stack; [rewrite Eg1; exact Ig | lia | lia | lia] |]. intros b B Ab. apply Am in Ab as [Ab | Ab]; [apply (Fr b); [lia | exact Ab] | lia].
    + exact Fd.
    + constructor.
      * rewrite P2; cbn [p_frame]; lia.
      * exact R1.
      * intros j z y r J P A. destruct (Ar j z y J P) as (r' & A' & V'). rewrite A in A'. injection A' as <-. rewrite P1; [rewrite <- V'; now rewrite low_low |]. intros ->. destruct j as [| j | j]; try discriminate A. do 3 (destruct j as [j | j |]; try discriminate A).
      * split; [| intros b _; reflexivity]. intros b q Ab. apply Am in Ab as [Ab | (A1 & A2 & A3)]; [eapply accessible_regions; [rewrite Eg1; symmetry; exact Eg | now apply Se1] |]. eapply in_stack; [rewrite Eg1; exact Ig | lia | lia | lia].
      * eapply written_byte_memory; [exact By | exact P3].
      * exact Fs.
      * rewrite P2. lia.
      * rewrite P2. split; [eapply in_stack; [rewrite Eg1; exact Ig | lia | lia | lia] |]. intros j J. eapply in_stack; [rewrite Eg1; exact Ig | lia | lia | lia].
      * rewrite P2. intros b Sa Ab. unfold saved_area in Sa. apply Am in Ab as [Ab | Ab]; [apply (Fr b); [lia | exact Ab] | lia].
    + assert (Sp2 : rget (regs m2) RSP = sp - 8) by (rewrite <- P2; apply Q1; cbn; tauto).
      assert (Kr : forall b, sp - 8 <= b -> ~ accessible (w_mem W) b 1 -> peek (mem m2) b = peek (mem m1) b). { intros b B Nb. apply Q3; [rewrite P2; exact B |]. intros Ab. apply Am in Ab as [Ab | Ab]; [contradiction | lia]. }
      destruct (pop_exists m2 (site G p) Q5) as (m3 & Po & R3); [lia | |].
      { rewrite Sp2. split; [apply Si |]. intros i I. rewrite Kr by (try lia; apply Fr; lia). rewrite (proj2 P3) by lia. destruct (_ && _) eqn:Y; [f_equal; lia | lia]. }
      destruct Po as (O1 & O2 & O3 & O4). exists m3. split; [| split; [| split; [| split; [| split; [| split; [| split]]]]]].
      * right. exists F, (sp - 8), m1, p2, m2. split; [exists nm, w; auto |]. split; [exact Pu |]. split; [exact St |]. split; [exact Rt |]. split; [exact O1 |]. split; [exact O2 |]. split; [exact O3 | exact O4].
      * intros q I. destruct (reg_dec q RSP) as [-> | Nq]; [rewrite O3, Sp2, Es; lia |]. rewrite O1 by exact Nq. rewrite Q1 by exact I. now apply P1.
      * exact R3.
      * rewrite O4. exact Q6.
      * rewrite O4, Q7. exact Eg1.
      * rewrite O4. destruct Q2 as (Q2 & Q2'). split.
        -- intros b q Ab. apply Q2. eapply accessible_regions; [exact Q8 |]. destruct Ab as (A1 & r & A2 & A3). rewrite Rw in A2. split; [exact A1 |]. exists r. split; [right; exact A2 | exact A3].
        -- intros b Ab. assert (Ab' : accessible (w_mem W) b 1) by (eapply accessible_regions; [symmetry; exact Rw | exact Ab]). rewrite <- Pk by exact Ab'. apply Q2'. eapply accessible_regions; [exact Q8 |]. destruct Ab' as (A1 & r & A2 & A3). split; [exact A1 |]. exists r. split; [right; exact A2 | exact A3].
      * intros z Wz. destruct (Va z Wz) as (v & Ev & Lv). rewrite O1 by discriminate. rewrite Lv, <- (Q4 _ _ Ev). now rewrite low_low.
      * intros b B Nb. rewrite O4, Kr; [| lia | exact Nb]. apply K1; lia.
Qed.
