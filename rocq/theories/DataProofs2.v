(** What is where in the data of a static object *)
From Verif Require Import Base SrtModel ImmcModel ImmcgenModel X64Isa OpSpec TypeSpec CSem ImmcProgram InitSpec ProgSpec IsaMemProofs ExprProofs2 InitProofs DataProofs.
Open Scope Z_scope.

Lemma peek_poke_list : forall l m a b, 0 <= a -> 0 <= b -> peek (poke_list m a l) b = if (a <=? b) && (b <? a + Z.of_nat (length l)) then nth (Z.to_nat (b - a)) l 0 else peek m b.
Proof.
  induction l as [| x l IH]; intros m a b A B; cbn [poke_list].
  - destruct (_ && _) eqn:E; [cbn [length] in E; lia | reflexivity].
  - rewrite IH by lia. rewrite peek_poke by lia. cbn [length]. destruct (b =? a) eqn:E.
    + apply Z.eqb_eq in E. subst b. rewrite Z.sub_diag. destruct (a + 1 <=? a) eqn:F; [lia |]. cbn [andb]. destruct (_ && _) eqn:G; [reflexivity | lia].
    + destruct ((a + 1 <=? b) && _) eqn:F; destruct ((a <=? b) && _) eqn:G; try lia.
      replace (Z.to_nat (b - a)) with (S (Z.to_nat (b - (a + 1)))) by lia. reflexivity.
Qed.

(** the data of an object: as many bytes as the object has, the value of each scalar and each character at its place *)
Lemma static_contents fuel s d st cs st' : gen fuel (Some d) s st = Ok (cs, st') -> length (g_syms st) = 1%nat -> regular_static (g_tags st) s d = true ->
  exists l, (forall rest, take_data (cs ++ rest) = l ++ take_data rest) /\ Z.of_nat (length l) = sizeof d /\
    forall call P Sc val a W W',
      (forall n a, p_label P n = Some a -> 0 <= a < 2 ^ 64) -> (forall i, p_string P i = p_label P (create_sliteral_label i)) ->
      s_tags Sc = g_tags st -> laid_out (s_tags Sc) d ->
      (forall off t e, scalar_at (s_tags Sc) s d off t e -> forall W v W', eval call P Sc e W = Ok (v, W') -> v = val e /\ w_mem W' = w_mem W) ->
      0 <= a -> (exists M, w_mem W = poke_list M a (repeat 0 (length l))) -> initialise call P Sc s d a W = Ok W' ->
      (forall b, a <= b < a + sizeof d -> peek (w_mem W') b = nth (Z.to_nat (b - a)) l 0) /\
      (forall off t e, scalar_at (s_tags Sc) s d off t e -> 0 <= off /\ off + sizeof t <= sizeof d /\
         exists u z, kind t = Some (u, z) /\ forall i, 0 <= i < sizeof t -> nth (Z.to_nat (off + i)) l 0 = byte (low z (val e)) i) /\
      (forall off c, char_at (s_tags Sc) s d off c -> 0 <= off < sizeof d /\ nth (Z.to_nat off) l 0 = c mod 256).
Proof.
  intros H G R. destruct (static_data _ _ _ _ _ _ H) as (_ & l & Al & Ln & Pt); [unfold is_global; now rewrite G | exact R |].
  exists l. split; [intros rest; now apply take_all |]. split; [exact Ln |].
  intros call P Sc val a W W' P1 P2 T L St A (M & Z0) I. assert (PP : places_ok P) by (split; assumption).
  assert (E := Pt call P Sc a W W' PP T A I M Z0). destruct (init_does call P Sc val s d a W W' I L St) as [_ D1 D2].
  assert (Pk : forall b, a <= b < a + sizeof d -> peek (w_mem W') b = nth (Z.to_nat (b - a)) l 0).
  { intros b B. rewrite E. cbn [w_mem set_wmem]. rewrite peek_poke_list by lia. destruct (_ && _) eqn:X; [reflexivity | lia]. }
  split; [exact Pk |]. split.
  - intros off t e S. destruct (D1 _ _ _ S) as (O1 & O2 & O3 & u & z & K & Hz). split; [exact O1 |]. split; [exact O2 |]. exists u, z. split; [exact K |]. intros i Hi.
    destruct Hz as [_ Hz]. rewrite <- Hz by (rewrite <- (kind_size _ _ _ K); exact Hi). rewrite Pk by lia. f_equal. lia.
  - intros off c S. destruct (D2 _ _ S) as (O1 & O2 & Hc). split; [exact O1 |]. rewrite <- Hc, Pk by lia. f_equal. lia.
Qed.
