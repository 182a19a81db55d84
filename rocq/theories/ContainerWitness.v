(** Concrete histories used as counterexamples and non-vacuity examples. *)
From Verif Require Import Base VectorModel VectorSpec VectorProofs MapModel SetModel MapSpec MapProofs MapProofs2 SetProofs.
Local Open Scope Z_scope.

(** the table has 15 slots; keys 7 and 22 share home slot 14 *)
Definition stale_history : list (upd Z Z) :=
  [UAdd 1 0; UAdd 2 0; UAdd 3 0; UAdd 4 0; UAdd 7 10; UAdd 22 20; URemove 7; UAdd 22 21; UAdd 5 0; UAdd 6 0].
Definition undead_history : list (upd Z Z) :=
  [UAdd 1 0; UAdd 2 0; UAdd 3 0; UAdd 4 0; UAdd 7 10; UAdd 22 20; URemove 7; UAdd 22 21; URemove 22].
Definition twice_history : list (upd Z Z) :=
  [UAdd 1 0; UAdd 2 0; UAdd 3 0; UAdd 4 0; UAdd 7 10; UAdd 22 20; URemove 7; UAdd 22 21].

Definition run_int (ops : list (upd Z Z)) := map_run Z.eqb hash_integer new_map (List.map to_mop ops).

Lemma stale_witness : exists (ops : list (upd Z Z)) m k v v',
  map_run Z.eqb hash_integer new_map (List.map to_mop ops) = Ok m /\
  latest Z.eqb ops k = Some v /\ map_get Z.eqb hash_integer m k = Ok (Some v') /\ v <> v'.
Proof.
  destruct (run_int stale_history) as [m| | | |] eqn:E; try (vm_compute in E; discriminate E).
  exists stale_history, m, 22, 21, 20. split; [exact E|]. split; [vm_compute; reflexivity|].
  vm_compute in E. injection E as <-. split; [vm_compute; reflexivity|discriminate].
Qed.

Lemma undead_witness : exists (ops : list (upd Z Z)) m k v,
  map_run Z.eqb hash_integer new_map (List.map to_mop ops) = Ok m /\
  latest Z.eqb ops k = None /\ map_get Z.eqb hash_integer m k = Ok (Some v).
Proof.
  destruct (run_int undead_history) as [m| | | |] eqn:E; try (vm_compute in E; discriminate E).
  exists undead_history, m, 22, 20. split; [exact E|]. split; [vm_compute; reflexivity|].
  vm_compute in E. injection E as <-. vm_compute; reflexivity.
Qed.

Lemma twice_witness : exists (ops : list (upd Z Z)) m k,
  map_run Z.eqb hash_integer new_map (List.map to_mop ops) = Ok m /\
  (1 < count_occ Z.eq_dec (List.map fst (map_iter m)) k)%nat.
Proof.
  destruct (run_int twice_history) as [m| | | |] eqn:E; try (vm_compute in E; discriminate E).
  exists twice_history, m, 22. split; [exact E|].
  vm_compute in E. injection E as <-. vm_compute. lia.
Qed.

(** an item removed from a set that still belongs to it *)
Definition undead_set : list Z * list Z := ([1;2;3;4;7;22], [7]).

Lemma undead_set_witness : exists s s' x,
  reachable Z.eqb hash_integer s /\ set_remove Z.eqb hash_integer s x = Ok s' /\
  set_contains Z.eqb hash_integer s' x = Ok true.
Proof.
  assert (Hadd : forall xs s s', reachable Z.eqb hash_integer s ->
    add_all Z.eqb hash_integer xs s = Ok s' -> reachable Z.eqb hash_integer s').
  { induction xs as [|x xs IH]; intros s s' Hr H; cbn in H; [injection H as <-; assumption|].
    destruct (set_add Z.eqb hash_integer s x) as [s1| | | |] eqn:E; cbn in H; try discriminate.
    eapply IH; [|exact H]. eapply r_add; eauto. }
  destruct (add_all Z.eqb hash_integer [1;2;3;4;7;22] new_set) as [s1| | | |] eqn:E1; try (vm_compute in E1; discriminate E1).
  assert (R1 := Hadd _ _ _ (r_new _ _) E1).
  destruct (set_remove Z.eqb hash_integer s1 7) as [s2| | | |] eqn:E2; try (vm_compute in E1; injection E1 as <-; vm_compute in E2; discriminate E2).
  assert (R2 := r_remove _ _ _ _ _ R1 E2).
  destruct (set_add Z.eqb hash_integer s2 22) as [s3| | | |] eqn:E3;
    try (vm_compute in E1; injection E1 as <-; vm_compute in E2; injection E2 as <-; vm_compute in E3; discriminate E3).
  assert (R3 := r_add _ _ _ _ _ R2 E3).
  vm_compute in E1; injection E1 as <-; vm_compute in E2; injection E2 as <-; vm_compute in E3; injection E3 as <-.
  match goal with |- exists s s' x, _ =>
    match type of R3 with reachable _ _ ?s => exists s end end.
  eexists _, 22. split; [exact R3|]. split; [vm_compute; reflexivity|]. vm_compute; reflexivity.
Qed.

(** a string whose hash is negative makes every lookup undefined *)
Lemma negative_hash_witness : exists s : name,
  Forall (fun c => -128 <= c <= 127) s /\
  map_get (V := Z) name_eqb hash_string new_map s = Ok None /\
  exists m, map_run name_eqb hash_string new_map (List.map to_mop [UAdd (bytes "int") 1; UAdd (bytes "if") 2]) = Ok m /\
  map_get name_eqb hash_string m s = UB.
Proof.
  exists [-61; -88]. split; [repeat constructor; lia|]. split; [vm_compute; reflexivity|].
  eexists; split; [vm_compute; reflexivity|]. vm_compute; reflexivity.
Qed.
