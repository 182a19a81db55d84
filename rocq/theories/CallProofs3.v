(** Proofs for C34, C44, C45: the stack pointer and the registers in the generated assembly code *)
From Verif Require Import Base ElabProofs ElabProofs2 ImmcModel RegallocModel X64Model X64genModel LabelSpec LabelProofs RegSpec RegProofs6 CallSpec CallProofs CallProofs2.
Local Open Scope Z_scope.
#[local] Arguments moves : simpl never.

(** * What one assembly code does to the registers *)
Definition is_jump (t : xinst) : bool :=
  match t with
  | X64_INST_JMP | X64_INST_JE | X64_INST_JNE | X64_INST_JA | X64_INST_JAE | X64_INST_JB | X64_INST_JBE
  | X64_INST_JG | X64_INST_JGE | X64_INST_JL | X64_INST_JLE => true
  | _ => false
  end.
Definition lit (i : iliteral) : Z := if iliteral_isunsigned i then uval i else sval i.
Definition touched (c : x64) : list xreg :=
  match c with
  | X64_INST t _ d =>
      match t with
      | X64_INST_CMPX | X64_INST_CALL | X64_INST_RET | X64_INST_PUSHX => []
      | X64_INST_DIVX | X64_INST_IDIVX => [AX_REG_ID; DX_REG_ID]
      | X64_INST_CXTX => [AX_REG_ID]
      | X64_INST_CXTD | X64_INST_CQTO => [DX_REG_ID]
      | _ => match d with Some (X64_OPERAND_REG _ r) => [r] | _ => [] end
      end
  | _ => []
  end.
Definition xmove (c : x64) : Z :=
  match c with
  | X64_INST X64_INST_PUSHX _ _ => 8
  | X64_INST X64_INST_POPX _ _ => - 8
  | X64_INST X64_INST_SUBX (Some (X64_OPERAND_INT _ i)) (Some (X64_OPERAND_REG X64_SUFFIX_QUAD SP_REG_ID)) => lit i
  | X64_INST X64_INST_ADDX (Some (X64_OPERAND_INT _ i)) (Some (X64_OPERAND_REG X64_SUFFIX_QUAD SP_REG_ID)) => - lit i
  | _ => 0
  end.
Definition sane (c : x64) : Prop :=
  match c with
  | X64_INST (X64_INST_SUBX | X64_INST_ADDX) (Some (X64_OPERAND_INT _ _)) (Some (X64_OPERAND_REG X64_SUFFIX_QUAD SP_REG_ID)) => True
  | _ => ~ In SP_REG_ID (touched c)
  end.
Definition xlabel (c : x64) : list name := match c with X64_LABEL _ _ n => [n] | _ => [] end.
Definition xtarget (c : x64) : list name := match c with X64_INST t _ (Some (X64_OPERAND_JLABEL n)) => if is_jump t then [n] else [] | _ => [] end.
Definition xcall (c : x64) : bool := match c with X64_INST X64_INST_CALL _ _ => true | _ => false end.
Definition xret (c : x64) : bool := match c with X64_INST X64_INST_RET _ _ => true | _ => false end.
Definition xgrown (cs : list x64) : Z := fold_right Z.add 0 (List.map xmove cs).
Fixpoint xlabels (d : Z) (cs : list x64) : list (name * Z) :=
  match cs with [] => [] | c :: r => List.map (fun n => (n, d)) (xlabel c) ++ xlabels (d + xmove c) r end.
Fixpoint xjumps (d : Z) (cs : list x64) : list (name * Z) :=
  match cs with [] => [] | c :: r => List.map (fun n => (n, d)) (xtarget c) ++ xjumps (d + xmove c) r end.
Fixpoint xcalls (d : Z) (cs : list x64) : list Z :=
  match cs with [] => [] | c :: r => (if xcall c then [d] else []) ++ xcalls (d + xmove c) r end.
Lemma xgrown_cons c cs : xgrown (c :: cs) = xmove c + xgrown cs.
Proof. reflexivity. Qed.
Lemma xgrown_app a b : xgrown (a ++ b) = xgrown a + xgrown b.
Proof. induction a as [| x a IH]; cbn [app]; [reflexivity |]. rewrite !xgrown_cons. lia. Qed.
Lemma xlabels_app : forall a d b, xlabels d (a ++ b) = xlabels d a ++ xlabels (d + xgrown a) b.
Proof. induction a as [| x a IH]; intros d b; cbn [app xlabels]; [cbn; f_equal; lia |]. rewrite IH, xgrown_cons, <- app_assoc. do 3 f_equal. lia. Qed.
Lemma xjumps_app : forall a d b, xjumps d (a ++ b) = xjumps d a ++ xjumps (d + xgrown a) b.
Proof. induction a as [| x a IH]; intros d b; cbn [app xjumps]; [cbn; f_equal; lia |]. rewrite IH, xgrown_cons, <- app_assoc. do 3 f_equal. lia. Qed.
Lemma xcalls_app : forall a d b, xcalls d (a ++ b) = xcalls d a ++ xcalls (d + xgrown a) b.
Proof. induction a as [| x a IH]; intros d b; cbn [app xcalls]; [cbn; f_equal; lia |]. rewrite IH, xgrown_cons, <- app_assoc. do 3 f_equal. lia. Qed.

(** codes that only compute in the registers [A] *)
Definition moving (t : xinst) : bool := match t with X64_INST_PUSHX | X64_INST_POPX | X64_INST_CALL | X64_INST_RET => true | _ => is_jump t end.
Definition quiet (A : list xreg) (c : x64) : Prop :=
  match c with X64_INST t _ _ => moving t = false /\ incl (touched c) A | _ => False end.
(** jumps name their target *)
Definition aimed (c : x64) : Prop := match c with X64_INST t _ d => is_jump t = true -> exists l, d = Some (X64_OPERAND_JLABEL l) | _ => True end.
(** [cs] is code for [c]: the same labels, jumps and calls with the same stack; it uses the registers [A] *)
Record chunk (A : list xreg) (c : immc) (cs : list x64) : Prop := {
  ch_grown : xgrown cs = moves c;
  ch_labels : forall d, xlabels d cs = dlabels d [c];
  ch_jumps : forall d, xjumps d cs = djumps d [c];
  ch_calls : forall d, xcalls d cs = dcalls d [c];
  ch_sane : Forall sane cs;
  ch_stays : Forall (fun c => xret c = false /\ x64_external c = false) cs;
  ch_uses : forall x r, In x cs -> In r (touched x) -> r = SP_REG_ID \/ In r A;
  ch_aimed : Forall aimed cs }.
Lemma quiet_aimed A cs : Forall (quiet A) cs -> Forall aimed cs.
Proof. apply Forall_impl. intros [t s d | | |]; cbn; auto. intros [M _] J. unfold moving in M. destruct t; discriminate. Qed.
Lemma quiet_move A c : ~ In SP_REG_ID A -> quiet A c -> xmove c = 0 /\ xlabel c = [] /\ xtarget c = [] /\ xcall c = false /\ sane c /\ xret c = false /\ x64_external c = false.
Proof.
  intros N Q. destruct c as [t s d | | |]; try destruct Q. cbn [quiet] in *. assert (NT : ~ In SP_REG_ID (touched (X64_INST t s d))) by (intros I; apply N; auto).
  destruct t; try discriminate; cbn in NT |- *; splits; auto; try reflexivity;
    try (destruct d as [[] |]; reflexivity);
    try (destruct s as [[] |]; try reflexivity; destruct d as [[] |]; try reflexivity; match goal with |- match ?z with _ => _ end = 0 => destruct z; try reflexivity end; match goal with |- match ?z with _ => _ end = 0 => destruct z; try reflexivity end; exfalso; apply NT; now left);
    try (destruct s as [[] |]; try exact NT; destruct d as [[] |]; try exact NT; match goal with |- match ?z with _ => _ end => destruct z; try exact NT end; match goal with |- match ?z with _ => _ end => destruct z; try exact NT; exact Logic.I end).
Qed.
Lemma quiet_list A cs : ~ In SP_REG_ID A -> Forall (quiet A) cs -> xgrown cs = 0 /\ (forall d, xlabels d cs = []) /\ (forall d, xjumps d cs = []) /\ (forall d, xcalls d cs = []) /\ Forall sane cs
  /\ Forall (fun c => xret c = false /\ x64_external c = false) cs /\ (forall x r, In x cs -> In r (touched x) -> In r A).
Proof.
  intros N. induction 1 as [| c cs Q F IH]; [splits; auto; try reflexivity; intros x r [] |].
  destruct (quiet_move A c N Q) as (M & LB & T & C & S & R & E), IH as (I1 & I2 & I3 & I4 & I5 & I6 & I7). splits.
  - rewrite xgrown_cons, M, I1. reflexivity.
  - intros d. cbn. now rewrite LB, I2.
  - intros d. cbn. now rewrite T, I3.
  - intros d. cbn. now rewrite C, I4.
  - now constructor.
  - constructor; auto.
  - intros x r [<- | I] J; [| eauto]. destruct c; try destruct Q. auto.
Qed.
Lemma quiet_chunk A c cs : ~ In SP_REG_ID A -> still c = true -> label_of c = [] -> Forall (quiet A) cs -> chunk A c cs.
Proof.
  intros N S LB F. destruct (quiet_list A cs N F) as (I1 & I2 & I3 & I4 & I5 & I6 & I7).
  assert (M : moves c = 0 /\ target_of c = [] /\ is_call c = false) by (destruct c as [t d f g | | |]; [destruct t; try discriminate S; cbn; auto | auto..]). destruct M as (M1 & M2 & M3).
  constructor; auto; intros; try (rewrite ?I1, ?I2, ?I3, ?I4; cbn; now rewrite ?LB, ?M1, ?M2, ?M3). right. eauto. eapply quiet_aimed, F.
Qed.

(** * The code for the instructions *)
Definition allowed (ev : Z) : list xreg := AX_REG_ID :: CALLER_SAVED_REG_IDS ++ firstn (Z.to_nat ev) CALLEE_SAVED_REG_IDS.
Lemma allowed_sp ev : ~ In SP_REG_ID (allowed ev).
Proof.
  unfold allowed. intros [Q | I]; [discriminate Q |]. apply in_app_iff in I as [I | I]; [cbn in I; intuition discriminate |].
  assert (I' : In SP_REG_ID CALLEE_SAVED_REG_IDS) by (rewrite <- (firstn_skipn (Z.to_nat ev) CALLEE_SAVED_REG_IDS); apply in_app_iff; now left). cbn in I'. intuition discriminate.
Qed.
Lemma allowed_ax ev : In AX_REG_ID (allowed ev).
Proof. now left. Qed.
Lemma reg_at_in l i r : reg_at l i = Ok r -> In r l.
Proof. unfold reg_at, deref. destruct (i <? 0); [discriminate |]. destruct (nth_error l (Z.to_nat i)) eqn:E; [| discriminate]. intros H. injection H as <-. eapply nth_error_In, E. Qed.
Lemma caller_allowed ev i r : CALLER i = Ok r -> In r (allowed ev).
Proof. intros H. right. apply in_app_iff. left. exact (reg_at_in _ _ _ H). Qed.
Lemma real_allowed ev o r : ope_real o = Ok r -> In r (allowed ev).
Proof. unfold ope_real. intros H. apply bind_ok in H as (q & _ & H). eapply caller_allowed, H. Qed.
Lemma firstn_incl {B} (l : list B) : forall n m, (n <= m)%nat -> incl (firstn n l) (firstn m l).
Proof. induction l as [| x l IH]; intros [| n] [| m] Lt y I; cbn in *; try tauto; [lia |]. destruct I as [I | I]; [now left | right]. eapply IH; [| exact I]. lia. Qed.
Lemma allowed_mono a b : a <= b -> incl (allowed a) (allowed b).
Proof.
  intros H r [I | I]; [now left | right]. apply in_app_iff in I as [I | I]; apply in_app_iff; [now left | right]. eapply firstn_incl; [| exact I]. lia.
Qed.
Lemma firstn_nth {B} (l : list B) : forall i n x, (i < n)%nat -> nth_error l i = Some x -> In x (firstn n l).
Proof. induction l as [| y l IH]; intros [| i] [| n] x Lt E; try discriminate E; try lia; cbn in *; [left; congruence | right; eapply IH; [| exact E]; lia]. Qed.
Lemma callee_allowed ev i r : 0 <= i < ev -> CALLEE i = Ok r -> In r (allowed ev).
Proof.
  intros H C. right. apply in_app_iff. right. unfold CALLEE, reg_at, deref in C. destruct (i <? 0); [discriminate |]. destruct (nth_error CALLEE_SAVED_REG_IDS (Z.to_nat i)) eqn:E; [| discriminate]. injection C as <-.
  apply (firstn_nth _ (Z.to_nat i)); [lia | exact E].
Qed.
Lemma quiet_mov A ss sr ds dr u : In AX_REG_ID A -> In dr A -> Forall (quiet A) (append_mov_code ss sr ds dr u).
Proof.
  intros X D. unfold append_mov_code, append_mov_code_simple, append_mov_code_unsigned, append_mov_code_signed.
  destruct (_ >=? _), u, (xreg_beq sr dr), ss, (xreg_beq sr AX_REG_ID), (xreg_beq dr AX_REG_ID); cbn [app]; repeat constructor; intros r I; cbn in I; intuition congruence.
Qed.
Ltac qlist := repeat match goal with |- Forall _ [] => apply Forall_nil | |- Forall _ (_ :: _) => apply Forall_cons; [split; [reflexivity |] |] end.
Lemma finish_ok cs st cs' st' : finish cs st = Ok (cs', st') -> cs' = cs /\ x_evac st' = x_evac st.
Proof. unfold finish. intros H. apply bind_ok in H as (l & _ & H). injection H as <- <-. auto. Qed.
Lemma quiet_two ev t to f g cs s acc : moving t = false -> (forall s i, incl (touched (X64_INST t s (Some i))) (match i with X64_OPERAND_REG _ r => [r] | _ => [] end)) ->
  match to with Some r => In r (allowed ev) | None => True end -> two_sources t to f g = Ok (cs, s, acc) -> Forall (quiet (allowed ev)) cs /\ In acc (allowed ev).
Proof.
  intros M T A H. unfold two_sources in H. apply bind_ok in H as (r & R & H). apply bind_ok in H as (fu & _ & H).
  assert (AC : In (match to with Some r => r | None => r end) (allowed ev)) by (destruct to; [exact A | eapply real_allowed, R]).
  destruct g; try discriminate H.
  - apply bind_ok in H as (g & G & H). apply bind_ok in H as (gu & _ & H). injection H as <- <- <-. split; [| exact AC].
    apply Forall_app; split; [apply quiet_mov; [apply allowed_ax | exact AC] |]. apply Forall_app; split; [apply quiet_mov; [apply allowed_ax | eapply real_allowed, G] |].
    constructor; [split; [exact M |] | constructor]. intros x I. apply T in I. destruct I as [<- | []]. exact AC.
  - injection H as <- <- <-. split; [| exact AC]. apply Forall_app; split; [apply quiet_mov; [apply allowed_ax | exact AC] |].
    constructor; [split; [exact M |] | constructor]. intros x I. apply T in I. destruct I as [<- | []]. exact AC.
Qed.
Ltac touch := let s := fresh in let i := fresh in let r := fresh in intros s i r; destruct i; cbn; tauto.
Lemma quiet_one A t s z r : moving t = false -> In r A -> incl (touched (X64_INST t s (Some (X64_OPERAND_REG z r)))) [r] -> Forall (quiet A) [X64_INST t s (Some (X64_OPERAND_REG z r))].
Proof. intros M I T. constructor; [split; [exact M |] | constructor]. intros x X. apply T in X. destruct X as [<- | []]. exact I. Qed.
Lemma quiet_mem A t s o : moving t = false -> touched (X64_INST t s o) = [] -> quiet A (X64_INST t s o).
Proof. intros M T. split; [exact M |]. rewrite T. intros x []. Qed.

Lemma binary_quiet t to d f g st cs st' ev : moving t = false -> (forall s i, incl (touched (X64_INST t s (Some i))) (match i with X64_OPERAND_REG _ r => [r] | _ => [] end)) ->
  match to with Some r => In r (allowed ev) | None => True end -> gen_binary t to d f g st = Ok (cs, st') -> Forall (quiet (allowed ev)) cs /\ x_evac st' = x_evac st.
Proof.
  intros M T A H. unfold gen_binary in H. apply bind_ok in H as (d' & _ & H). apply bind_ok in H as (f' & _ & H). apply bind_ok in H as (g' & _ & H). apply bind_ok in H as (dr & D & H).
  apply bind_ok in H as ([[c s] acc] & TS & H). apply bind_ok in H as (du & _ & H). apply finish_ok in H as [-> E]. split; [| exact E].
  destruct (quiet_two ev t to f' g' c s acc M T A TS) as [Q I]. apply Forall_app; split; [exact Q |]. apply quiet_mov; [apply allowed_ax | eapply real_allowed, D].
Qed.
Lemma unary_quiet t d f st cs st' ev : moving t = false -> (forall s i, incl (touched (X64_INST t s (Some i))) (match i with X64_OPERAND_REG _ r => [r] | _ => [] end)) ->
  gen_unary t d f st = Ok (cs, st') -> Forall (quiet (allowed ev)) cs /\ x_evac st' = x_evac st.
Proof.
  intros M T H. unfold gen_unary in H. apply bind_ok in H as (d' & _ & H). apply bind_ok in H as (f' & _ & H). apply bind_ok in H as (dr & D & H). apply bind_ok in H as ([[c r] u] & TS & H). apply finish_ok in H as [-> E]. split; [| exact E].
  assert (DA : In dr (allowed ev)) by (eapply real_allowed, D).
  assert (K : Forall (quiet (allowed ev)) c /\ In r (allowed ev)).
  { destruct f'; try discriminate TS.
    - apply bind_ok in TS as (q & Q & TS). apply bind_ok in TS as (q' & _ & TS). injection TS as <- <- <-. split; [constructor | eapply real_allowed, Q].
    - injection TS as <- <- <-. split; [| exact DA]. apply quiet_one; [reflexivity | exact DA |]. intros x X. exact X. }
  destruct K as [K1 K2]. apply Forall_app; split; [exact K1 |]. apply Forall_app; split; [apply quiet_one; [exact M | exact K2 | apply (T None (X64_OPERAND_REG _ r))] |]. apply quiet_mov; [apply allowed_ax | exact DA].
Qed.
Lemma setcmp_quiet t d f g st cs st' ev : moving t = false -> (forall s i, incl (touched (X64_INST t s (Some i))) (match i with X64_OPERAND_REG _ r => [r] | _ => [] end)) ->
  gen_setcmp t d f g st = Ok (cs, st') -> Forall (quiet (allowed ev)) cs /\ x_evac st' = x_evac st.
Proof.
  intros M T H. unfold gen_setcmp in H. apply bind_ok in H as (d' & _ & H). apply bind_ok in H as (f' & _ & H). apply bind_ok in H as (g' & _ & H). apply bind_ok in H as ([[c s] acc] & TS & H). apply bind_ok in H as (dr & D & H). apply finish_ok in H as [-> E]. split; [| exact E].
  assert (DA : In dr (allowed ev)) by (eapply real_allowed, D).
  destruct (quiet_two ev X64_INST_CMPX None f' g' c s acc eq_refl ltac:(touch) Logic.I TS) as [Q I].
  apply Forall_app; split; [exact Q |]. apply Forall_app; split; [apply quiet_one; [exact M | exact DA | apply (T None (X64_OPERAND_REG _ dr))] |]. apply quiet_mov; [apply allowed_ax | exact DA].
Qed.
Lemma shrot_quiet t d f g st cs st' ev : moving t = false -> (forall s i, incl (touched (X64_INST t s (Some i))) (match i with X64_OPERAND_REG _ r => [r] | _ => [] end)) ->
  gen_shrot t d f g st = Ok (cs, st') -> Forall (quiet (allowed ev)) cs /\ x_evac st' = x_evac st.
Proof.
  intros M T H. unfold gen_shrot in H. apply bind_ok in H as (d' & _ & H). apply bind_ok in H as (f' & _ & H). apply bind_ok in H as (g' & _ & H). apply bind_ok in H as (fr & _ & H). destruct g'; try discriminate H.
  apply bind_ok in H as ([[c z] acc] & TS & H). apply bind_ok in H as (dr & D & H). apply bind_ok in H as (du & _ & H). apply finish_ok in H as [-> E]. split; [| exact E].
  destruct (quiet_two ev t None f' _ c z acc M T Logic.I TS) as [Q I]. apply Forall_app; split; [exact Q |]. apply quiet_mov; [apply allowed_ax | eapply real_allowed, D].
Qed.
Lemma ax_or_dx ev : In AX_REG_ID (allowed ev) /\ In DX_REG_ID (allowed ev).
Proof. split; [now left | right; apply in_app_iff; left; cbn; tauto]. Qed.
Lemma divisional_quiet result d f g st cs st' : 0 <= x_evac st -> gen_divisional result d f g st = Ok (cs, st') -> Forall (quiet (allowed (x_evac st'))) cs /\ x_evac st <= x_evac st'.
Proof.
  intros P H. unfold gen_divisional in H. apply bind_ok in H as (d' & _ & H). apply bind_ok in H as (f' & _ & H). apply bind_ok in H as (g' & _ & H). apply bind_ok in H as (dr & D & H). apply bind_ok in H as (fr & F & H). apply bind_ok in H as (fu & _ & H).
  apply bind_ok in H as ([c gr] & TS & H). apply bind_ok in H as (evac & _ & H). apply bind_ok in H as (er & EV & H). apply bind_ok in H as (du & _ & H). apply finish_ok in H as [-> E].
  set (ev := x_evac st') in *. destruct (ax_or_dx ev) as [AX DX].
  assert (DA : In dr (allowed ev)) by (eapply real_allowed, D). assert (FA : In fr (allowed ev)) by (eapply real_allowed, F).
  assert (K : Forall (quiet (allowed ev)) c).
  { destruct g'; try discriminate TS.
    - apply bind_ok in TS as (q & Q & TS). apply bind_ok in TS as (q' & _ & TS). injection TS as <- <-. apply Forall_app; split; apply quiet_mov; auto. destruct (xreg_beq q DX_REG_ID); [exact FA | eapply real_allowed, Q].
    - apply bind_ok in TS as (q & Q & TS). injection TS as <- <-. apply Forall_app; split; [apply quiet_mov; auto |]. apply quiet_one; [reflexivity | eapply caller_allowed, Q | intros x X; exact X]. }
  assert (V : x_evac st <= ev /\ (evac = true -> 1 <= ev)).
  { destruct evac; cbn [andb] in E; [destruct (x_evac st <? 1) eqn:B; cbn in E |]; split; lia. }
  destruct V as [V1 V2]. split; [| exact V1].
  assert (ER : evac = true -> In er (allowed ev)) by (intros Q; eapply (callee_allowed _ 0); [specialize (V2 Q); lia | exact EV]).
  apply Forall_app; split; [exact K |]. apply Forall_app; split; [| apply Forall_app; split; [| apply Forall_app; split; [| apply Forall_app; split]]].
  - destruct evac; [| constructor]. apply quiet_mov; auto.
  - destruct du; [apply quiet_one; [reflexivity | exact DX | intros x X; exact X] |].
    destruct (xsuffix_beq _ _); qlist; intros x X; cbn in X; destruct X as [<- | []]; exact DX.
  - destruct du; qlist; intros x X; cbn in X; destruct X as [<- | [<- | []]]; auto.
  - apply quiet_mov; auto.
  - destruct evac; [| constructor]. apply quiet_mov; auto.
Qed.
Lemma str_units_quiet A tmp : In tmp A -> forall n s off, Forall (quiet A) (str_units n s off tmp).
Proof. intros I. induction n as [| n IH]; intros s off; cbn; [constructor |]. constructor; [| constructor; [| apply IH]]; split; try reflexivity; intros x X; cbn in X; [destruct X as [<- | []]; exact I | destruct X]. Qed.
Lemma str_rest_quiet A tmp s off : In tmp A -> Forall (quiet A) (str_rest s off tmp).
Proof.
  intros I. unfold str_rest. destruct (_ =? _); [constructor |]. destruct (_ <=? _); [qlist; intros x [] |]. destruct (_ <=? _); [qlist; intros x [] |]. destruct (_ <=? _); [qlist; intros x [] |].
  qlist; intros x X; cbn in X; [destruct X as [<- | []]; exact I | destruct X].
Qed.
Lemma load_quiet d f st cs st' ev : gen_load d f st = Ok (cs, st') -> Forall (quiet (allowed ev)) cs /\ x_evac st' = x_evac st.
Proof.
  intros H. unfold gen_load in H. apply bind_ok in H as (d' & _ & H). apply bind_ok in H as (f' & _ & H). apply bind_ok in H as (dr & D & H). assert (DA : In dr (allowed ev)) by (eapply real_allowed, D).
  destruct f'; try discriminate H.
  - apply bind_ok in H as (q & Q & H). apply bind_ok in H as (u & _ & H). apply finish_ok in H as [-> E]. split; [| exact E]. apply quiet_mov; [apply allowed_ax | exact DA].
  - apply bind_ok in H as (q & Q & H). apply finish_ok in H as [-> E]. split; [| exact E]. apply quiet_one; [reflexivity | exact DA | intros x X; exact X].
  - apply finish_ok in H as [-> E]. split; [| exact E]. apply quiet_one; [reflexivity | exact DA | intros x X; exact X].
  - apply finish_ok in H as [-> E]. split; [| exact E]. apply quiet_one; [reflexivity | exact DA | intros x X; exact X].
  - apply finish_ok in H as [-> E]. split; [| exact E]. apply quiet_one; [reflexivity | exact DA | intros x X; exact X].
Qed.
Lemma addr_quiet d f st cs st' ev : gen_addr d f st = Ok (cs, st') -> Forall (quiet (allowed ev)) cs /\ x_evac st' = x_evac st.
Proof.
  intros H. unfold gen_addr in H. apply bind_ok in H as (d' & _ & H). apply bind_ok in H as (f' & _ & H). apply bind_ok in H as (dr & D & H). assert (DA : In dr (allowed ev)) by (eapply real_allowed, D).
  destruct f'; try discriminate H; apply finish_ok in H as [-> E]; (split; [| exact E]); (apply quiet_one; [reflexivity | exact DA | intros x X; exact X]).
Qed.
Lemma store_quiet d f st cs st' ev : gen_store d f st = Ok (cs, st') -> Forall (quiet (allowed ev)) cs /\ x_evac st' = x_evac st.
Proof.
  intros H. unfold gen_store in H. apply bind_ok in H as (d' & _ & H). apply bind_ok in H as (f' & _ & H). apply bind_ok in H as (x & X & H). apply bind_ok in H as (y & _ & H). apply finish_ok in H as [-> E]. split; [| exact E].
  constructor; [| constructor]. apply quiet_mem; [reflexivity |]. destruct d'; try discriminate X; [apply bind_ok in X as (q & _ & X) | |]; injection X as <-; reflexivity.
Qed.
Lemma str_quiet d f st cs st' ev : gen_str d f st = Ok (cs, st') -> Forall (quiet (allowed ev)) cs /\ x_evac st' = x_evac st.
Proof.
  intros H. unfold gen_str in H. apply bind_ok in H as (d' & _ & H). apply bind_ok in H as (f' & _ & H). apply bind_ok in H as (tmp & T & H). apply bind_ok in H as (s & _ & H). cbv zeta in H. apply finish_ok in H as [-> E]. split; [| exact E].
  apply Forall_app; split; [apply str_units_quiet | apply str_rest_quiet]; eapply caller_allowed, T.
Qed.
Lemma ldarg_quiet d f st cs st' ev : gen_ldarg d f st = Ok (cs, st') -> Forall (quiet (allowed ev)) cs /\ x_evac st' = x_evac st.
Proof.
  intros H. unfold gen_ldarg in H. apply bind_ok in H as (d' & _ & H). apply bind_ok in H as (f' & _ & H). apply bind_ok in H as (r & _ & H). destruct (_ <? _).
  - apply bind_ok in H as (a & _ & H). apply finish_ok in H as [-> E]. split; [| exact E]. qlist. intros x [].
  - apply bind_ok in H as (a & A & H). apply finish_ok in H as [-> E]. split; [| exact E]. qlist; intros x X; cbn in X; [destruct X as [<- | []]; eapply caller_allowed, A | destruct X].
Qed.
Lemma stret_quiet f st cs st' ev : gen_stret f st = Ok (cs, st') -> Forall (quiet (allowed ev)) cs /\ x_evac st' = x_evac st.
Proof.
  intros H. unfold gen_stret in H. apply bind_ok in H as (f' & _ & H). destruct f'; try discriminate H.
  - apply bind_ok in H as (q & Q & H). apply bind_ok in H as (u & _ & H). apply finish_ok in H as [-> E]. split; [| exact E]. apply quiet_mov; apply allowed_ax.
  - apply finish_ok in H as [-> E]. split; [| exact E]. apply quiet_one; [reflexivity | apply allowed_ax | intros x X; exact X].
Qed.

(** moves, pushes and jumps *)
Lemma chunk_jump ev t c l cs j : target_of c = [l] -> still c = false -> label_of c = [] -> is_call c = false -> moves c = 0 -> is_jump t = true -> Forall (quiet (allowed ev)) cs -> j = X64_INST t None (Some (X64_OPERAND_JLABEL l)) -> chunk (allowed ev) c (cs ++ [j]).
Proof.
  intros T S LB C M J F ->. destruct (quiet_list _ cs (allowed_sp ev) F) as (I1 & I2 & I3 & I4 & I5 & I6 & I7).
  assert (JM : xmove (X64_INST t None (Some (X64_OPERAND_JLABEL l))) = 0 /\ xcall (X64_INST t None (Some (X64_OPERAND_JLABEL l))) = false /\ xret (X64_INST t None (Some (X64_OPERAND_JLABEL l))) = false /\ touched (X64_INST t None (Some (X64_OPERAND_JLABEL l))) = [])
    by (destruct t; try discriminate J; cbn; auto). destruct JM as (J1 & J2 & J3 & J4).
  constructor.
  - rewrite xgrown_app, I1, xgrown_cons, J1, M. reflexivity.
  - intros d. rewrite xlabels_app, I2. cbn. now rewrite LB.
  - intros d. rewrite xjumps_app, I3, I1. cbn. rewrite J, T. cbn. now rewrite Z.add_0_r.
  - intros d. rewrite xcalls_app, I4. cbn [app xcalls dcalls]. now rewrite J2, C.
  - apply Forall_app; split; [exact I5 |]. repeat constructor. destruct t; try discriminate J; cbn; tauto.
  - apply Forall_app; split; [exact I6 |]. repeat constructor. exact J3.
  - intros x r I R. apply in_app_iff in I as [I | [<- | []]]; [right; eauto |]. rewrite J4 in R. destruct R.
  - apply Forall_app; split; [eapply quiet_aimed, F |]. repeat constructor. intros _. eauto.
Qed.
Lemma jcmp_chunk c t d f g st cs st' ev : (forall l, d = Some (IMMC_OPERAND_LABEL l) -> target_of c = [l]) -> still c = false -> label_of c = [] -> is_call c = false -> moves c = 0 -> is_jump t = true ->
  gen_jcmp t d f g st = Ok (cs, st') -> chunk (allowed ev) c cs /\ x_evac st' = x_evac st.
Proof.
  intros T S LB C M J H. unfold gen_jcmp in H. apply bind_ok in H as (f' & _ & H). apply bind_ok in H as (g' & _ & H). apply bind_ok in H as ([[c0 s] acc] & TS & H). apply bind_ok in H as (d' & D & H). apply bind_ok in H as (l & Lb & H). apply finish_ok in H as [-> E]. split; [| exact E].
  destruct d as [d0 |]; [| discriminate D]. injection D as ->. destruct d'; try discriminate Lb. injection Lb as ->.
  destruct (quiet_two ev X64_INST_CMPX None f' g' c0 s acc eq_refl ltac:(touch) Logic.I TS) as [Q I]. eapply chunk_jump; eauto.
Qed.
Lemma by_sign_jump f u s i : by_sign f u s = Ok i -> i = u \/ i = s.
Proof. unfold by_sign. intros H. apply bind_ok in H as (f' & _ & H). apply bind_ok in H as (b & _ & H). injection H as <-. destruct b; auto. Qed.
Lemma evacuations_regs : forall l dst count ev, 0 <= count -> evacuations l dst count = Ok ev -> forall p, In p ev -> In (fst p) CALLER_SAVED_REG_IDS /\ exists j, count <= j < count + Z.of_nat (length ev) /\ CALLEE j = Ok (snd p).
Proof.
  induction l as [| i l IH]; intros dst count ev P H p I; cbn [evacuations] in H; [injection H as <-; destruct I |].
  apply bind_ok in H as (d & D & H). apply bind_ok in H as (dr & DR & H). destruct (_ =? _); [now apply (IH dst)|].
  apply bind_ok in H as (ce & CE & H). apply bind_ok in H as (cr & CR & H). apply bind_ok in H as (t & T & H). injection H as <-. cbn [length]. destruct I as [<- | I].
  - split; [exact (reg_at_in _ _ _ CR) |]. exists count. split; [lia | exact CE].
  - destruct (IH dst (count + 1) t ltac:(lia) T p I) as (A & j & B & C). split; [exact A |]. exists j. split; [lia | exact C].
Qed.
Lemma pops_grown rs : xgrown (List.map (fun r => X64_INST X64_INST_POPX None (Some (X64_OPERAND_REG X64_SUFFIX_QUAD r))) rs) = - 8 * Z.of_nat (length rs).
Proof. induction rs as [| r rs IH]; [reflexivity |]. cbn [List.map]. rewrite xgrown_cons, IH. cbn [xmove length]. lia. Qed.
Lemma pops_facts rs : let cs := List.map (fun r => X64_INST X64_INST_POPX None (Some (X64_OPERAND_REG X64_SUFFIX_QUAD r))) rs in
  (forall d, xlabels d cs = []) /\ (forall d, xjumps d cs = []) /\ (forall d, xcalls d cs = []) /\ (~ In SP_REG_ID rs -> Forall sane cs)
  /\ Forall (fun c => xret c = false /\ x64_external c = false) cs /\ (forall x r, In x cs -> In r (touched x) -> In r rs).
Proof.
  cbn zeta. induction rs as [| r rs IH]; [splits; try reflexivity; try constructor; intros x r [] |]. destruct IH as (A & B & C & D & F & G). cbn [List.map]. splits; [intros d; cbn; auto | intros d; cbn; auto | intros d; cbn; auto | | constructor; auto |].
  - intros N. constructor; [cbn; intros [Q | []]; apply N; now left |]. apply D. intros Q. apply N. now right.
  - intros x q [<- | I] J; [cbn in J; destruct J as [<- | []]; now left | right; eauto].
Qed.
Lemma pushes_facts rs : let cs := List.map (fun r => X64_INST X64_INST_PUSHX (Some (X64_OPERAND_REG X64_SUFFIX_QUAD r)) None) rs in
  xgrown cs = 8 * Z.of_nat (length rs) /\ (forall d, xlabels d cs = []) /\ (forall d, xjumps d cs = []) /\ (forall d, xcalls d cs = []) /\ Forall sane cs
  /\ Forall (fun c => xret c = false /\ x64_external c = false) cs.
Proof.
  cbn zeta. induction rs as [| r rs IH]; [splits; try reflexivity; constructor |]. destruct IH as (A & B & C & D & F & G). cbn [List.map]. splits.
  - rewrite xgrown_cons, A. cbn [xmove length]. lia.
  - intros d. cbn. apply B.
  - intros d. cbn. apply C.
  - intros d. cbn. apply D.
  - constructor; [cbn; tauto | exact F].
  - constructor; auto.
Qed.
Lemma arg_count n : Z.of_nat (length (used_arg_regs n)) = Z.min 6 (Z.max 0 n).
Proof. unfold used_arg_regs. rewrite firstn_length. cbn [length ARG_REG_IDS]. lia. Qed.
Lemma arg_in n r : In r (used_arg_regs n) -> In r CALLER_SAVED_REG_IDS.
Proof.
  unfold used_arg_regs. intros I. assert (I' : In r ARG_REG_IDS) by (rewrite <- (firstn_skipn (Z.to_nat n) ARG_REG_IDS); apply in_app_iff; now left). cbn in I' |- *. tauto.
Qed.
Lemma caller_in ev r : In r CALLER_SAVED_REG_IDS -> In r (allowed ev).
Proof. intros I. right. apply in_app_iff. now left. Qed.
Lemma flat_quiet A (f : xreg * xreg -> list x64) ev : (forall p, In p ev -> Forall (quiet A) (f p)) -> Forall (quiet A) (flat_map f ev).
Proof. intros H. induction ev as [| p ev IH]; cbn; [constructor |]. apply Forall_app; split; [apply H; now left | apply IH; intros q I; apply H; now right]. Qed.
Lemma count_ok o n : ope_count o = Ok n -> count_of (Some o) = n.
Proof. destruct o; cbn; congruence. Qed.
Lemma call_chunk d f g st cs st' : 0 <= x_evac st -> gen_call d f g st = Ok (cs, st') -> chunk (allowed (x_evac st')) (IMMC_INST IMMC_INST_CALL d f g) cs /\ x_evac st <= x_evac st'.
Proof.
  intros P H. unfold gen_call in H. apply bind_ok in H as (f' & _ & H). apply bind_ok in H as (g' & G & H). apply bind_ok in H as (set & _ & H). apply bind_ok in H as (ev & EV & H). apply bind_ok in H as (n & N & H).
  apply bind_ok in H as ([keep callee] & K & H). apply bind_ok in H as (move & M & H). apply finish_ok in H as [-> E]. cbn [x_evac] in E.
  assert (LE : x_evac st <= x_evac st') by lia. split; [| exact LE]. set (A := allowed (x_evac st')).
  destruct g as [g0 |]; [| discriminate G]. injection G as ->. apply count_ok in N.
  assert (EVR := evacuations_regs _ _ _ _ (Z.le_refl 0) EV).
  assert (AX : In AX_REG_ID A) by apply allowed_ax. assert (SP : ~ In SP_REG_ID A) by apply allowed_sp.
  assert (Q1 : Forall (quiet A) (flat_map (fun p => append_mov_code X64_SUFFIX_QUAD (fst p) X64_SUFFIX_QUAD (snd p) false) ev)).
  { apply flat_quiet. intros p I. apply quiet_mov; [exact AX |]. destruct (EVR p I) as (_ & j & B & C). eapply callee_allowed; [| exact C]. lia. }
  assert (Q2 : Forall (quiet A) keep).
  { destruct f'; try discriminate K; [| injection K as <- <-; constructor]. apply bind_ok in K as (q & R & K). apply bind_ok in K as (args & _ & K). apply bind_ok in K as (clash & _ & K). destruct clash; [| injection K as <- <-; constructor].
    apply bind_ok in K as (t & T & K). injection K as <- <-. apply quiet_mov; [exact AX | eapply caller_allowed, T]. }
  assert (Q3 : Forall (quiet A) [X64_INST X64_INST_MOVX (Some (new_signed_int_x64ope X64_SUFFIX_QUAD IInt 0)) (Some (X64_OPERAND_REG X64_SUFFIX_QUAD AX_REG_ID))]) by (apply quiet_one; [reflexivity | exact AX | intros x X; exact X]).
  assert (Q4 : Forall (quiet A) (flat_map (fun p => append_mov_code X64_SUFFIX_QUAD (snd p) X64_SUFFIX_QUAD (fst p) false) ev)).
  { apply flat_quiet. intros p I. apply quiet_mov; [exact AX |]. apply caller_in, (EVR p I). }
  assert (Q5 : Forall (quiet A) move).
  { destruct d as [d |]; [| injection M as <-; constructor]. apply bind_ok in M as (r & R & M). apply bind_ok in M as (u & _ & M). injection M as <-. apply quiet_mov; [exact AX | eapply real_allowed, R]. }
  assert (AM : Forall aimed (flat_map (fun p => append_mov_code X64_SUFFIX_QUAD (fst p) X64_SUFFIX_QUAD (snd p) false) ev ++ keep) /\ Forall aimed (flat_map (fun p => append_mov_code X64_SUFFIX_QUAD (snd p) X64_SUFFIX_QUAD (fst p) false) ev ++ move)) by (rewrite !Forall_app; splits; eapply quiet_aimed; eassumption).
  apply (quiet_list A) in Q1 as (A1 & A2 & A3 & A4 & A5 & A6 & A7); [| exact SP]. apply (quiet_list A) in Q2 as (B1 & B2 & B3 & B4 & B5 & B6 & B7); [| exact SP].
  apply (quiet_list A) in Q3 as (C1 & C2 & C3 & C4 & C5 & C6 & C7); [| exact SP]. apply (quiet_list A) in Q4 as (D1 & D2 & D3 & D4 & D5 & D6 & D7); [| exact SP]. apply (quiet_list A) in Q5 as (E1 & E2 & E3 & E4 & E5 & E6 & E7); [| exact SP].
  destruct (pops_facts (used_arg_regs n)) as (F1 & F2 & F3 & F4 & F5 & F6). assert (F0 := pops_grown (used_arg_regs n)). rewrite arg_count in F0.
  assert (MV : moves (IMMC_INST IMMC_INST_CALL d f (Some g')) = - 8 * Z.min 6 (Z.max 0 n)) by (unfold moves; rewrite N; reflexivity).
  constructor.
  - rewrite !xgrown_app, A1, B1, F0, C1, D1, E1, MV. unfold xgrown. cbn [xmove List.map fold_right]. lia.
  - intros x. now rewrite !xlabels_app, A2, B2, F1, C2, D2, E2.
  - intros x. now rewrite !xjumps_app, A3, B3, F2, C3, D3, E3.
  - intros x. rewrite !xcalls_app, A4, B4, F3, C4, D4, E4, A1, B1, F0, C1. cbn [app xcalls dcalls xcall is_call]. rewrite MV. f_equal. lia.
  - assert (F4' : Forall sane [X64_INST X64_INST_CALL (Some callee) None]) by (constructor; [cbn; tauto | constructor]).
    assert (F7 := F4 (fun I => SP (caller_in _ _ (arg_in _ _ I)))). rewrite !Forall_app. auto 10.
  - assert (F4' : Forall (fun c => xret c = false /\ x64_external c = false) [X64_INST X64_INST_CALL (Some callee) None]) by (constructor; [split; reflexivity | constructor]).
    rewrite !Forall_app. auto 10.
  - intros x r I R. right. apply in_app_iff in I as [I | I]; [eauto |]. apply in_app_iff in I as [I | I]; [eauto |]. apply in_app_iff in I as [I | I]; [eapply caller_in, arg_in, F6; eauto |]. apply in_app_iff in I as [I | I]; [eauto |].
    apply in_app_iff in I as [I | I]; [destruct I as [<- | []]; destruct R |]. apply in_app_iff in I as [I | I]; eauto.
  - destruct AM as [AM1 AM2]. apply Forall_app in AM1 as [M1 M2]. apply Forall_app in AM2 as [M3 M4]. rewrite !Forall_app. splits; auto.
    + apply Forall_forall. intros x I. apply in_map_iff in I as (r & <- & _). discriminate.
    + repeat constructor. discriminate.
    + repeat constructor. discriminate.
Qed.
Lemma chunk_sp A c cs : moves c = xgrown cs -> target_of c = [] -> label_of c = [] -> is_call c = false -> (cs = [] \/ exists x, cs = [x] /\ xlabel x = [] /\ xtarget x = [] /\ xcall x = false /\ sane x /\ xret x = false /\ x64_external x = false /\ (touched x = [] \/ touched x = [SP_REG_ID]) /\ aimed x) -> chunk A c cs.
Proof.
  intros M T LB C [-> | (x & -> & X1 & X2 & X3 & X4 & X5 & X6 & X7 & X8)]; constructor; auto; intros; cbn; rewrite ?LB, ?T, ?C, ?X1, ?X2, ?X3; auto. destruct H.
  destruct H as [<- | []]. destruct X7 as [X7 | X7]; rewrite X7 in H0; [destruct H0 |]. destruct H0 as [<- | []]; auto.
Qed.
Theorem inst_chunk t d f g st cs st' : ordinary (IMMC_INST t d f g) -> 0 <= x_evac st -> gen_inst_x64code (IMMC_INST t d f g) st = Ok (cs, st') ->
  chunk (allowed (x_evac st')) (IMMC_INST t d f g) cs /\ x_evac st <= x_evac st'.
Proof.
  intros O P H.
  assert (Q : still (IMMC_INST t d f g) = true -> Forall (quiet (allowed (x_evac st'))) cs /\ x_evac st' = x_evac st -> chunk (allowed (x_evac st')) (IMMC_INST t d f g) cs /\ x_evac st <= x_evac st')
    by (intros S [F E]; split; [apply quiet_chunk; auto; apply allowed_sp | lia]).
  assert (QD : still (IMMC_INST t d f g) = true -> Forall (quiet (allowed (x_evac st'))) cs /\ x_evac st <= x_evac st' -> chunk (allowed (x_evac st')) (IMMC_INST t d f g) cs /\ x_evac st <= x_evac st')
    by (intros S [F E]; split; [apply quiet_chunk; auto; apply allowed_sp | lia]).
  destruct t; cbn [gen_inst_x64code] in H; try destruct O; try (apply QD; [reflexivity |]; now apply divisional_quiet in H); try (apply Q; [reflexivity |]).
  all: try (eapply load_quiet, H); try (eapply addr_quiet, H); try (eapply str_quiet, H); try (eapply store_quiet, H); try (eapply ldarg_quiet, H); try (eapply stret_quiet, H).
  all: try (eapply binary_quiet; [| | | exact H]; [reflexivity | touch | try exact Logic.I; apply allowed_ax]).
  all: try (eapply unary_quiet; [| | exact H]; [reflexivity | touch]); try (eapply shrot_quiet; [| | exact H]; [reflexivity | touch]).
  all: try (apply bind_ok in H as (i & B & H); apply by_sign_jump in B).
  all: try (eapply setcmp_quiet; [| | exact H]; [reflexivity | touch]).
  all: try (destruct B; subst i; (eapply setcmp_quiet; [| | exact H]; [reflexivity | touch])).
  - unfold gen_starg in H. apply bind_ok in H as (f' & F & H). destruct f'; try discriminate H; [apply bind_ok in H as (q & _ & H) |]; apply finish_ok in H as [-> E]; (split; [| lia]); (apply chunk_sp; auto; right; eexists; split; [reflexivity |]; cbn; splits; auto; discriminate).
  - assert (Z : chunk (allowed (x_evac st')) (IMMC_INST IMMC_INST_JMP d f g) cs /\ x_evac st' = x_evac st); [| split; [apply Z | lia]].
    unfold gen_jmp in H. apply bind_ok in H as (d' & D & H). apply bind_ok in H as (l & LB & H). apply finish_ok in H as [-> E]. split; [| exact E]. destruct d as [d0 |]; [| discriminate D]. injection D as ->. destruct d'; try discriminate LB. injection LB as ->.
    match goal with |- chunk ?A ?c [?j] => exact (chunk_jump (x_evac st') X64_INST_JMP c l [] j eq_refl eq_refl eq_refl eq_refl eq_refl eq_refl (Forall_nil _) eq_refl) end.
  - assert (Z : chunk (allowed (x_evac st')) (IMMC_INST IMMC_INST_JEQ d f g) cs /\ x_evac st' = x_evac st); [| split; [apply Z | lia]]. eapply jcmp_chunk; [| | | | | | exact H]; try reflexivity. intros l ->. reflexivity.
  - assert (Z : chunk (allowed (x_evac st')) (IMMC_INST IMMC_INST_JNEQ d f g) cs /\ x_evac st' = x_evac st); [| split; [apply Z | lia]]. eapply jcmp_chunk; [| | | | | | exact H]; try reflexivity. intros l ->. reflexivity.
  - assert (Z : chunk (allowed (x_evac st')) (IMMC_INST IMMC_INST_JGT d f g) cs /\ x_evac st' = x_evac st); [| split; [apply Z | lia]]. destruct B; subst i; (eapply jcmp_chunk; [| | | | | | exact H]; try reflexivity; intros l ->; reflexivity).
  - assert (Z : chunk (allowed (x_evac st')) (IMMC_INST IMMC_INST_JGEQ d f g) cs /\ x_evac st' = x_evac st); [| split; [apply Z | lia]]. destruct B; subst i; (eapply jcmp_chunk; [| | | | | | exact H]; try reflexivity; intros l ->; reflexivity).
  - assert (Z : chunk (allowed (x_evac st')) (IMMC_INST IMMC_INST_JLT d f g) cs /\ x_evac st' = x_evac st); [| split; [apply Z | lia]]. destruct B; subst i; (eapply jcmp_chunk; [| | | | | | exact H]; try reflexivity; intros l ->; reflexivity).
  - assert (Z : chunk (allowed (x_evac st')) (IMMC_INST IMMC_INST_JLEQ d f g) cs /\ x_evac st' = x_evac st); [| split; [apply Z | lia]]. destruct B; subst i; (eapply jcmp_chunk; [| | | | | | exact H]; try reflexivity; intros l ->; reflexivity).
  - now apply call_chunk.
  - unfold gen_prep in H. apply bind_ok in H as (f' & F & H). apply bind_ok in H as (n & N & H). apply finish_ok in H as [-> E]. split; [| lia]. destruct f as [f0 |]; [| discriminate F]. injection F as ->. apply count_ok in N.
    assert (MV : moves (IMMC_INST IMMC_INST_PREP d (Some f') g) = if (6 <? n) && Z.odd n then 8 else 0) by (unfold moves; now rewrite N).
    assert (B : (n >? NUM_ARG_REGS) && (Z.rem n 2 =? 1) = (6 <? n) && Z.odd n).
    { unfold NUM_ARG_REGS. rewrite Z.gtb_ltb. destruct (6 <? n) eqn:Q6; [| reflexivity]. cbn [andb]. rewrite Z.rem_mod_nonneg, Zmod_odd by lia. now destruct (Z.odd n). }
    rewrite B. apply chunk_sp; auto; destruct ((6 <? n) && Z.odd n); auto; try (rewrite MV; reflexivity).
    right; eexists; split; [reflexivity |]; cbn; splits; auto; discriminate.
  - unfold gen_clean in H. apply bind_ok in H as (f' & F & H). apply bind_ok in H as (n & N & H). apply finish_ok in H as [-> E]. split; [| lia]. destruct f as [f0 |]; [| discriminate F]. injection F as ->. apply count_ok in N.
    assert (MV : moves (IMMC_INST IMMC_INST_CLEAN d (Some f') g) = if 6 <? n then - 16 * ((n - 6 + 1) / 2) else 0) by (unfold moves; now rewrite N).
    unfold NUM_ARG_REGS. rewrite Z.gtb_ltb. apply chunk_sp; auto; destruct (6 <? n) eqn:Q6; auto; try (rewrite MV; reflexivity).
    + rewrite MV. unfold xgrown. cbn [List.map fold_right]. match goal with |- _ = xmove (X64_INST X64_INST_ADDX (Some (imm ?v)) (Some sp)) + 0 => change (xmove (X64_INST X64_INST_ADDX (Some (imm v)) (Some sp))) with (- v) end.
      rewrite Z.quot_div_nonneg by lia. lia.
    + right; eexists; split; [reflexivity |]; cbn; splits; auto; discriminate.
Qed.
