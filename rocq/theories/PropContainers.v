(** C01-C05: vectors, maps, sets. *)
From Verif Require Import Base VectorModel VectorSpec VectorProofs MapModel SetModel MapSpec MapProofs MapProofs2
  SetProofs ContainerWitness.

(** C01: every history of vector calls returns what the same history on mathematical lists returns;
    the only undefined call is a pop of an empty vector. *)
Theorem C01_vector_refines_list : forall (A : Type) (ops : list (vop A)),
  match spec_run ([], []) ops with
  | Some (_, outs) => exists s, vrun (new_vector, new_vector) ops = Ok (s, outs)
  | None => vrun (new_vector, new_vector) ops = UB
  end.
Proof. exact vector_history. Qed.
Print Assumptions C01_vector_refines_list.

Example C01_case :
  spec_run ([], []) [OPush true 1; OPush true 2; OPush false 3; OInsert true 1 9; OExtend true; OErase true 0;
                     OFill true 5 7; OSet true 2 8; OPop true; OAt true 2; OAt true 4; OCopy false; OSize false]%Z
  = Some (([9; 2; 8; 7], [9; 2; 8; 7]),
          [RNone; RNone; RNone; RNone; RNone; RNone; RNone; RBool true; RItem 7; RPtr (Some 8); RPtr None; RNone; RNat 4])%Z.
Proof. vm_compute. reflexivity. Qed.

(** C02: without removals, a map returns for each key the value added last, for every key type whose
    comparison is equality, on keys with a non-negative hash. *)
Theorem C02_map_latest_binding : forall (K V : Type) (keq : K -> K -> bool) (hash : K -> Z),
  (forall a b, keq a b = true <-> a = b) ->
  forall ops : list (upd K V),
  Forall (fun o => match o with UAdd k _ => (0 <= hash k)%Z | URemove _ => False end) ops ->
  exists m, map_run keq hash new_map (List.map to_mop ops) = Ok m /\
    forall k, (0 <= hash k)%Z -> map_get keq hash m k = Ok (latest keq ops k).
Proof. exact add_only_history. Qed.
Print Assumptions C02_map_latest_binding.

(** keys that occur in the compiler: integers and strings of 7-bit characters *)
Theorem C02_hashes : (forall x, 0 <= hash_integer x)%Z /\
  (forall s, Forall (fun c => 0 <= c)%Z s -> 0 <= hash_string s)%Z.
Proof. exact (conj hash_integer_nonneg hash_string_nonneg). Qed.
Print Assumptions C02_hashes.

Example C02_case : exists m,
  map_run name_eqb hash_string new_map
    (List.map to_mop [UAdd (bytes "a") 1; UAdd (bytes "b") 2; UAdd (bytes "a") 3; UAdd (bytes "main") 4]%Z) = Ok m /\
  map_get name_eqb hash_string m (bytes "a") = Ok (Some 3%Z) /\
  map_get name_eqb hash_string m (bytes "c") = Ok None.
Proof. eexists. split; [vm_compute; reflexivity|]. split; vm_compute; reflexivity. Qed.

(** C02 without the hash condition is false: a key with a high-bit character indexes out of range. *)
Theorem C02_negative_hash_refuted : exists s : name,
  Forall (fun c => -128 <= c <= 127)%Z s /\
  map_get (V := Z) name_eqb hash_string new_map s = Ok None /\
  exists m, map_run name_eqb hash_string new_map (List.map to_mop [UAdd (bytes "int") 1; UAdd (bytes "if") 2]%Z) = Ok m /\
  map_get name_eqb hash_string m s = UB.
Proof. exact negative_hash_witness. Qed.
Print Assumptions C02_negative_hash_refuted.

(** C03: with removals.  The full property is false ... *)
Theorem C03_map_remove_refuted : exists (ops : list (upd Z Z)) m k v,
  map_run Z.eqb hash_integer new_map (List.map to_mop ops) = Ok m /\
  latest Z.eqb ops k = None /\ map_get Z.eqb hash_integer m k = Ok (Some v).
Proof. exact undead_witness. Qed.
Print Assumptions C03_map_remove_refuted.

Theorem C03_map_stale_value_refuted : exists (ops : list (upd Z Z)) m k v v',
  map_run Z.eqb hash_integer new_map (List.map to_mop ops) = Ok m /\
  latest Z.eqb ops k = Some v /\ map_get Z.eqb hash_integer m k = Ok (Some v') /\ v <> v'.
Proof. exact stale_witness. Qed.
Print Assumptions C03_map_stale_value_refuted.

(** ... and holds on the histories that never re-add a present key after a removal; *)
Theorem C03_map_tidy_partial : forall (K V : Type) (keq : K -> K -> bool) (hash : K -> Z),
  (forall a b, keq a b = true <-> a = b) ->
  forall ops : list (upd K V),
  Forall (fun o => match o with UAdd k _ => (0 <= hash k)%Z | URemove k => (0 <= hash k)%Z end) ops ->
  tidy keq ops ->
  exists m, map_run keq hash new_map (List.map to_mop ops) = Ok m /\
    forall k, (0 <= hash k)%Z -> map_get keq hash m k = Ok (latest keq ops k).
Proof. exact tidy_lookup. Qed.
Print Assumptions C03_map_tidy_partial.

Example C03_tidy_case :
  tidy Z.eqb [UAdd 1 10; UAdd 1 11; UAdd 2 20; URemove 1; UAdd 1 12; UAdd 3 30; URemove 2]%Z.
Proof. cbv. intuition. Qed.

(** on every history no call is undefined, a key whose last update is an addition is found, and
    whatever is returned was added for that key. *)
Theorem C03_map_any_history_partial : forall (K V : Type) (keq : K -> K -> bool) (hash : K -> Z),
  (forall a b, keq a b = true <-> a = b) ->
  forall ops : list (upd K V),
  Forall (fun o => match o with UAdd k _ => (0 <= hash k)%Z | URemove k => (0 <= hash k)%Z end) ops ->
  exists m, map_run keq hash new_map (List.map to_mop ops) = Ok m /\
    forall k, (0 <= hash k)%Z -> exists o, map_get keq hash m k = Ok o /\
      (latest keq ops k <> None -> o <> None) /\
      (forall v, o = Some v -> In (UAdd k v) ops).
Proof. exact any_lookup. Qed.
Print Assumptions C03_map_any_history_partial.

(** C04: iteration.  An iterator can visit a key twice ... *)
Theorem C04_iteration_refuted : exists (ops : list (upd Z Z)) m k,
  map_run Z.eqb hash_integer new_map (List.map to_mop ops) = Ok m /\
  (1 < count_occ Z.eq_dec (List.map fst (map_iter m)) k)%nat.
Proof. exact twice_witness. Qed.
Print Assumptions C04_iteration_refuted.

(** ... but on tidy histories it visits exactly the current bindings, each once. *)
Theorem C04_iteration_partial : forall (K V : Type) (keq : K -> K -> bool) (hash : K -> Z),
  (forall a b, keq a b = true <-> a = b) ->
  forall ops : list (upd K V),
  Forall (fun o => match o with UAdd k _ => (0 <= hash k)%Z | URemove k => (0 <= hash k)%Z end) ops ->
  tidy keq ops ->
  exists m, map_run keq hash new_map (List.map to_mop ops) = Ok m /\
    NoDup (List.map fst (map_iter m)) /\
    (forall k v, In (k, v) (map_iter m) <-> latest keq ops k = Some v).
Proof. exact tidy_iteration. Qed.
Print Assumptions C04_iteration_partial.

(** C05: on every set a client can build, membership tests agree with iteration, and union,
    intersection, difference, subset, equality and addition are the set-theoretic ones; removal keeps
    the other items. *)
Theorem C05_set_operations : forall (K : Type) (keq : K -> K -> bool) (hash : K -> Z),
  (forall a b, keq a b = true <-> a = b) -> (forall k, 0 <= hash k)%Z ->
  forall s t, reachable keq hash s -> reachable keq hash t ->
  let member := member keq hash in
  (forall x, set_contains keq hash s x = Ok (member s x) /\ (member s x = true <-> In x (set_items s))) /\
  (exists u, set_union keq hash s t = Ok u /\ forall x, member u x = member s x || member t x) /\
  (exists u, set_intersection keq hash s t = Ok u /\ forall x, member u x = member s x && member t x) /\
  (exists u, set_difference keq hash s t = Ok u /\ forall x, member u x = member s x && negb (member t x)) /\
  (exists b, set_issubset keq hash s t = Ok b /\ (b = true <-> forall x, member t x = true -> member s x = true)) /\
  (exists b, set_equals keq hash s t = Ok b /\ (b = true <-> forall x, member s x = member t x)) /\
  (forall x, exists s', set_add keq hash s x = Ok s' /\ forall y, member s' y = keq x y || member s y) /\
  (forall x, exists s', set_remove keq hash s x = Ok s' /\
     (forall y, y <> x -> member s' y = member s y) /\ (member s' x = true -> member s x = true)).
Proof. exact (fun K => @set_ops K). Qed.
Print Assumptions C05_set_operations.

(** the missing half of removal is false *)
Theorem C05_set_remove_refuted : exists s s' x,
  reachable Z.eqb hash_integer s /\ set_remove Z.eqb hash_integer s x = Ok s' /\
  set_contains Z.eqb hash_integer s' x = Ok true.
Proof. exact undead_set_witness. Qed.
Print Assumptions C05_set_remove_refuted.

Example C05_case : exists s t u,
  add_all Z.eqb hash_integer [1; 5; 9; 5]%Z new_set = Ok s /\ add_all Z.eqb hash_integer [5; 2]%Z new_set = Ok t /\
  set_union Z.eqb hash_integer s t = Ok u /\ set_contains Z.eqb hash_integer u 2%Z = Ok true /\
  set_contains Z.eqb hash_integer u 3%Z = Ok false.
Proof.
  eexists _, _, _. split; [vm_compute; reflexivity|]. split; [vm_compute; reflexivity|].
  split; [vm_compute; reflexivity|]. split; vm_compute; reflexivity.
Qed.
