(** A recursive program for C48: the sum of the numbers up to [n] *)
From Coq Require Import Lia ZifyBool FMapPositive.
From Verif Require Import Base DriverModel AstModel SrtModel ResolverModel ImmcModel ImmcgenModel RegallocModel X64Model X64Decode X64genModel FrontModel TypeSpec TypeProofs CSem CProgram ImmcSem ImmcProgram ProgSpec OrderSpec CallSpec LabelSpec OpSpec IsaProofs IsaMemProofs SimSpec SimCallSpec SimCallCheck SimCallCheckProofs SimProgSpec SimProofs12 SimProofs13 TestFixtures ExprWitness X64Isa.
Local Open Scope Z_scope.
Definition C48_sum := bytes "int sum(int n) { if (n == 0) return 0; return n + sum(n - 1); } int main(void) { return sum(10); }".
Definition C48_sum_label (n : name) : option Z := if name_eqb n (bytes "sum") then Some 1000 else if name_eqb n (bytes "main") then Some 2000 else None.
Lemma sum_body : exists f, (match front C48_sum with Ok s => match translation_unit s with Ok u => nth_error (u_functions u) 1 | _ => None end | _ => None end) = Some (bytes "sum", f)
  /\ (forall cl P W M1, p_label P = C48_sum_label -> store (w_mem W) S4 (low S8 (p_frame P - 4)) 0 = Some M1 -> load M1 S4 (low S8 (p_frame P - 4)) = Some 0 -> function_does cl P 9 f [(S4, 0)] W (Some (S4, 0)) (set_wmem W M1))
  /\ forall cl P p W M1 x W2, p_label P = C48_sum_label -> store (w_mem W) S4 (low S8 (p_frame P - 4)) (Z.pos p) = Some M1 -> load M1 S4 (low S8 (p_frame P - 4)) = Some (Z.pos p) -> interp false S4 (Z.pos p) = Z.pos p -> fit DTYPE_INT (Z.pos p - 1) = Ok (Z.pos p - 1) ->
     cl 1000 [(S4, low S4 (Z.pos p - 1))] (set_wmem W M1) = Ok (x, W2) -> interp false S4 x = x -> fit DTYPE_INT (Z.pos p + x) = Ok (Z.pos p + x) -> function_does cl P 9 f [(S4, Z.pos p)] W (Some (S4, low S4 (Z.pos p + x))) W2.
Proof.
  eexists. split; [vm_compute; reflexivity |].
  assert (B : forall P W M1 v Sc0, store (w_mem W) S4 (low S8 (p_frame P - 4)) v = Some M1 -> sym_define_memory (s_syms Sc0) [110] DTYPE_INT = Ok ({| sc_map := [([110], mksym (SYMBOL_MEM 4) DTYPE_INT)]; sc_nbytes := 4 |} :: tl (s_syms Sc0)) ->
    bind_params P [(Some [110], DTYPE_INT)] [(S4, v)] Sc0 W = Ok (mkscopes ({| sc_map := [([110], mksym (SYMBOL_MEM 4) DTYPE_INT)]; sc_nbytes := 4 |} :: tl (s_syms Sc0)) (s_tags Sc0), set_wmem W M1)).
  { intros P W M1 v Sc0 St Sd. cbn [bind_params kind check size_eqb bind]. rewrite Sd. cbn [bind]. change (var_address P _ _) with (@Ok Z (low S8 (p_frame P - 4))). cbn [bind]. unfold store_as. cbn [kind]. rewrite St. reflexivity. }
  split.
  - intros cl P W M1 Pl St Lo. do 4 eexists. split; [vm_compute; reflexivity |]. split; [apply B; [exact St | vm_compute; reflexivity] |]. split; [| left; reflexivity].
    destruct P as [pl ps pf]. cbn [p_label p_frame] in *. subst pl. revert Lo. generalize (set_wmem W M1), (eq_refl : w_mem (set_wmem W M1) = M1). intros W1 E1 Lo. cbv -[load low interp fit Z.add Z.sub w_mem Z.opp Z.pow]. rewrite E1, Lo. vm_compute. reflexivity.
  - intros cl P p W M1 x W2 Pl St Lo I1 F1 Ca I2 F2. do 4 eexists. split; [vm_compute; reflexivity |]. split; [apply B; [exact St | vm_compute; reflexivity] |]. split; [| left; reflexivity].
    destruct P as [pl ps pf]. cbn [p_label p_frame] in *. subst pl. revert Lo Ca. generalize (set_wmem W M1), (eq_refl : w_mem (set_wmem W M1) = M1). intros W1 E1 Lo Ca. cbv -[load low interp fit Z.add Z.sub w_mem Z.opp Z.pow]. rewrite E1, Lo. rewrite I1.
    change (- 2 ^ (32 - 1)) with (-2147483648). change (2 ^ (32 - 1)) with 2147483648. cbv -[load low interp fit Z.add Z.sub w_mem Z.opp Z.pow]. rewrite ?E1, ?Lo, ?I1. cbv -[load low interp fit Z.add Z.sub w_mem Z.opp Z.pow]. rewrite E1, Lo, I1, F1, Ca, I2, F2. reflexivity.
Qed.

Lemma main_body : exists f, (match front C48_sum with Ok s => match translation_unit s with Ok u => nth_error (u_functions u) 0 | _ => None end | _ => None end) = Some (bytes "main", f)
  /\ forall cl P W W2, p_label P = C48_sum_label -> cl 1000 [(S4, 10)] W = Ok (55, W2) -> function_does cl P 9 f [] W (Some (S4, 55)) W2.
Proof.
  eexists. split; [vm_compute; reflexivity |]. intros cl P W W2 Pl Ca. do 4 eexists. split; [vm_compute; reflexivity |]. split; [reflexivity |]. split; [| left; reflexivity].
  destruct P as [pl ps pf]. cbn [p_label] in Pl. subst pl. cbv -[low interp fit Z.add Z.sub Z.opp Z.pow]. change (- 2 ^ (32 - 1)) with (-2147483648). change (2 ^ (32 - 1)) with 2147483648. cbv -[low interp fit Z.add Z.sub Z.opp Z.pow]. change (low S4 10) with 10. rewrite Ca. vm_compute. reflexivity.
Qed.
Definition C48_sum_calls (n : nat) (sp : Z) : caller := fun a args W =>
  if forallb (fun r => (snd r <=? 1024) || (sp <=? fst r)) (regions (w_mem W)) && (sp <=? 65536) then
    match args with
    | [(S4, v)] => if (a =? 1000) && (0 <=? v) && (v <=? 1000) && (v <? Z.of_nat n) && (1024 + 48 <=? sp - 48 * (v + 1)) then Ok (v * (v + 1) / 2, W) else Err
    | [] => if (a =? 2000) && (12 <=? Z.of_nat n) && (1024 + 48 <=? sp - 16 - 48 * 11) then Ok (55, W) else Err
    | _ => Err
    end
  else Err.
Definition C48_sum_size (nm : name) : Z := if name_eqb nm (bytes "sum") then 16 else 0.
Definition C48_sum_saved (nm : name) : list xreg := if name_eqb nm (bytes "sum") then [BX_REG_ID] else [].
Lemma load_small M a v : accessible M a 4 -> 0 <= v <= 1000 -> (forall i, 0 <= i < 4 -> peek M (a + i) = byte v i) -> load M S4 a = Some v.
Proof.
  intros A V P. unfold load. assert (valid M a (nbytes S4) = true) as -> by (apply valid_accessible, A). f_equal. change (nbytes S4) with 4%nat. cbn [load_bytes].
  pose proof (P 0 ltac:(lia)) as P0. pose proof (P 1 ltac:(lia)) as P1. pose proof (P 2 ltac:(lia)) as P2. pose proof (P 3 ltac:(lia)) as P3. rewrite Z.add_0_r in P0. replace (a + 1 + 1) with (a + 2) by lia. replace (a + 2 + 1) with (a + 3) by lia. rewrite P0, P1, P2, P3. unfold byte.
  change (2 ^ (8 * 0)) with 1. change (2 ^ (8 * 1)) with 256. change (2 ^ (8 * 2)) with 65536. change (2 ^ (8 * 3)) with 16777216. clear -V.
  rewrite Z.div_1_r, (Z.div_small v 65536), (Z.div_small v 16777216) by lia. rewrite (Z.mod_small (v / 256)) by (split; [apply Z.div_pos; lia | apply Z.div_lt_upper_bound; lia]). rewrite Z.mod_0_l by lia. pose proof (Z.div_mod v 256). lia.
Qed.
Lemma signed_small v : 0 <= v < 2 ^ 31 -> interp false S4 v = v.
Proof. intros V. unfold interp, signed, wraps. change (nbits S4) with 32. rewrite Z.mod_small by lia. change (2 ^ (32 - 1)) with (2 ^ 31). destruct (_ <? _) eqn:E; lia. Qed.
Lemma fit_small v : 0 <= v < 2 ^ 31 -> fit DTYPE_INT v = Ok v.
Proof. intros V. unfold fit. cbn [kind]. unfold OpSpec.in_range. change (nbits S4) with 32. change (32 - 1) with 31. destruct (_ && _) eqn:E; [reflexivity | lia]. Qed.
Lemma sum_program : exists s u, front C48_sum = Ok s /\ translation_unit s = Ok u /\
  program_meaning u C48_sum_label (fun _ => None) (fun _ => Some S4) 1024 (fun nm => Z.max 0 (C48_sum_size nm)) (fun nm => frame_depth (C48_sum_size nm) (C48_sum_saved nm)) (fun _ _ _ => Err) C48_sum_calls.
Proof.
  destruct sum_body as (f & Ef & Z0 & Zp). destruct main_body as (g & Eg & Zm). destruct (front C48_sum) as [s | | | |] eqn:Es; try discriminate Ef. destruct (translation_unit s) as [u | | | |] eqn:Eu; try discriminate Ef. exists s, u. split; [reflexivity |]. split; [exact Eu |].
  intros n sp a args W x W' E. right. unfold C48_sum_calls in E. destruct (forallb _ _ && _) eqn:Fr; [| discriminate E]. apply andb_prop in Fr as (Fr & Ts). rewrite forallb_forall in Fr. 
  destruct args as [| [[] v] [|]]; try discriminate E.
  - destruct (_ && _) eqn:B in E; [| discriminate E]. injection E as <- <-. destruct n as [| n]; [lia |]. exists n. split; [reflexivity |]. assert (a = 2000) as -> by lia. exists (bytes "main").
    exists g. split; [reflexivity |]. split; [eapply nth_error_In; exact Eg |]. change (frame_depth (C48_sum_size (bytes "main")) (C48_sum_saved (bytes "main"))) with 8. change (Z.max 0 (C48_sum_size (bytes "main"))) with 0. split; [lia |]. split; [reflexivity |].
    intros M (Rg & Pk). exists 9%nat, (Some (S4, 55)), (set_wmem W M). split; [| split; [exact Pk | split; [reflexivity | split; [reflexivity |]]]]. 2: { intros z Z. injection Z as <-. eexists. split; reflexivity. }
    apply Zm; [reflexivity |]. unfold C48_sum_calls. cbn [w_mem set_wmem regions]. replace (forallb _ _ && _) with true; [| symmetry; apply andb_true_intro; split; [| lia]; apply forallb_forall; intros r I; cbn [w_mem set_wmem] in I; rewrite Rg in I; destruct I as [<- | I]; [cbn [fst snd]; lia | specialize (Fr r I); lia]].
    replace ((1000 =? 1000) && (0 <=? 10) && (10 <=? 1000) && (10 <? Z.of_nat n) && (1024 + 48 <=? sp - 8 - 8 - 48 * (10 + 1))) with true by lia. reflexivity.
  - destruct (_ && _) eqn:B in E; [| discriminate E]. injection E as <- <-. destruct n as [| n]; [lia |]. exists n. split; [reflexivity |]. assert (a = 1000) as -> by lia. exists (bytes "sum"), f. split; [reflexivity |]. split; [eapply nth_error_In; exact Ef |].
    change (frame_depth (C48_sum_size (bytes "sum")) (C48_sum_saved (bytes "sum"))) with 40. change (Z.max 0 (C48_sum_size (bytes "sum"))) with 16. split; [lia |]. split; [reflexivity |].
    intros M (Rg & Pk). set (P := mkplaces C48_sum_label (fun _ => None) (sp - 16)). assert (La : low S8 (p_frame P - 4) = sp - 20) by (cbn [P p_frame]; unfold low; change (nbits S8) with 64; rewrite Z.mod_small by lia; lia).
    assert (Ac : accessible M (sp - 20) 4) by (split; [lia |]; exists (sp - 16 - 16, sp - 16); split; [rewrite Rg; now left | cbn [fst snd]; lia]).
    destruct (store_written M S4 (sp - 20) v Ac) as (M1 & St & Wr & Wp).
    assert (Lo : load M1 S4 (sp - 20) = Some v). { apply load_small; [destruct Ac as (A1 & A2); split; [exact A1 | rewrite Wr; exact A2] | lia |]. intros i I. rewrite Wp by lia. change (size_bytes S4) with 4. replace ((sp - 20 <=? sp - 20 + i) && (sp - 20 + i <? sp - 20 + 4)) with true by lia. f_equal. lia. }
    assert (Pw : forall b, accessible (w_mem W) b 1 -> peek M1 b = peek (w_mem W) b).
    { intros b Ab. rewrite Wp by apply Ab. change (size_bytes S4) with 4. rewrite Pk by exact Ab. destruct ((sp - 20 <=? b) && (b <? sp - 20 + 4)) eqn:Y; [| reflexivity]. destruct Ab as (_ & r & I & R1 & R2). specialize (Fr r I). lia. }
    exists 9%nat, (Some (S4, v * (v + 1) / 2)), (set_wmem W M1). split; [| split; [exact Pw | split; [reflexivity | split; [reflexivity |]]]].
    2: { intros z Z. injection Z as <-. eexists. split; reflexivity. }
    rewrite <- La in St, Lo. change (set_wmem W M1) with (set_wmem (set_wmem W M) M1). destruct v as [| p | p]; [apply Z0; [reflexivity | exact St | exact Lo] | | lia].
    assert (Hd : Z.pos p + (Z.pos p - 1) * (Z.pos p - 1 + 1) / 2 = Z.pos p * (Z.pos p + 1) / 2). { replace (Z.pos p * (Z.pos p + 1)) with ((Z.pos p - 1) * (Z.pos p - 1 + 1) + Z.pos p * 2) by ring. rewrite Z.div_add by lia. lia. }
    assert (Hb : 0 <= (Z.pos p - 1) * (Z.pos p - 1 + 1) / 2 <= 1000000) by (split; [apply Z.div_pos; nia | apply Z.div_le_upper_bound; nia]).
    assert (Lv : low S4 (Z.pos p - 1) = Z.pos p - 1) by (unfold low; change (nbits S4) with 32; rewrite Z.mod_small by lia; reflexivity).
    replace (Z.pos p * (Z.pos p + 1) / 2) with (low S4 (Z.pos p + (Z.pos p - 1) * (Z.pos p - 1 + 1) / 2)) by (unfold low; change (nbits S4) with 32; rewrite Z.mod_small by lia; exact Hd).
    apply (Zp _ P p (set_wmem W M) M1); [reflexivity | exact St | exact Lo | apply signed_small; lia | apply fit_small; lia | | apply signed_small; lia | apply fit_small; lia].
    rewrite Lv. unfold C48_sum_calls. cbn [w_mem set_wmem regions]. replace (forallb _ _ && _) with true; [| symmetry; apply andb_true_intro; split; [| lia]; apply forallb_forall; intros r I; cbn [w_mem set_wmem] in I; rewrite Wr, Rg in I; destruct I as [<- | I]; [cbn [fst snd]; lia | specialize (Fr r I); lia]].
    replace ((1000 =? 1000) && (0 <=? Z.pos p - 1) && (Z.pos p - 1 <=? 1000) && (Z.pos p - 1 <? Z.of_nat n) && (1024 + 48 <=? sp - 8 - 40 - 48 * (Z.pos p - 1 + 1))) with true by lia. reflexivity.
Qed.
