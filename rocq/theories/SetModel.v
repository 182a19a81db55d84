(** Model of src/set/set.c. *)
From Verif Require Import Base MapModel.

Section Set_.
  Context {K : Type}.
  Variable keq : K -> K -> bool.
  Variable hash : K -> Z.

  (** set.c:8-11: a set is a map whose values are all NOTNULL *)
  Definition set := map K unit.

  (** set.c:31-36 *)
  Definition new_set : set := new_map.

  (** set.c:45-47 *)
  Definition set_add (s : set) (x : K) : res set := map_add keq hash s x tt.

  (** set.c:49-51 *)
  Definition set_remove (s : set) (x : K) : res set := map_remove keq hash s x.

  (** set.c:53-55 *)
  Definition set_contains (s : set) (x : K) : res bool := map_contains keq hash s x.

  (** set.c:57-83: items visited by an iterator, in order *)
  Definition set_items (s : set) : list K := List.map fst (map_iter s).

  Fixpoint add_all (xs : list K) (acc : set) : res set :=
    match xs with
    | [] => Ok acc
    | x :: t => do acc' <- set_add acc x; add_all t acc'
    end.

  (** loop of set.c:87-93 ([want] = true) and 112-118 ([want] = false) *)
  Fixpoint filter_loop (want : bool) (xs : list K) (other acc : set) : res set :=
    match xs with
    | [] => Ok acc
    | x :: t =>
        do b <- set_contains other x;
        if Bool.eqb b want
        then do acc' <- set_add acc x; filter_loop want t other acc'
        else filter_loop want t other acc
    end.

  (** set.c:85-95 *)
  Definition set_intersection (s other : set) : res set :=
    filter_loop true (set_items s) other new_set.

  (** set.c:97-108 *)
  Definition set_union (s other : set) : res set :=
    do u <- add_all (set_items s) new_set; add_all (set_items other) u.

  (** set.c:110-120 *)
  Definition set_difference (s other : set) : res set :=
    filter_loop false (set_items s) other new_set.

  (** loop of set.c:123-129 *)
  Fixpoint subset_loop (xs : list K) (s : set) : res bool :=
    match xs with
    | [] => Ok true
    | x :: t => do b <- set_contains s x; if b then subset_loop t s else Ok false
    end.

  (** set.c:122-131: true when every item of [other] is in [s] *)
  Definition set_issubset (s other : set) : res bool := subset_loop (set_items other) s.

  (** set.c:133-135 *)
  Definition set_equals (s other : set) : res bool :=
    do b <- set_issubset s other; if b then set_issubset other s else Ok false.

  Inductive sop := SAdd (x : K) | SRemove (x : K).
  Definition set_step (s : set) (o : sop) : res set :=
    match o with SAdd x => set_add s x | SRemove x => set_remove s x end.
  Fixpoint set_run (s : set) (ops : list sop) : res set :=
    match ops with
    | [] => Ok s
    | o :: t => do s' <- set_step s o; set_run s' t
    end.
End Set_.
Arguments set K : clear implicits.
Arguments sop K : clear implicits.
