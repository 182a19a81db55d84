(** Model of src/map/map.c and src/map/cell.c. *)
From Verif Require Import Base.

Section Map.
  Context {K V : Type}.
  (** HashableType (common/type.h): [keq a b] is [compare_object(a, b) == 0], [hash] is
      [hash_object], a C int and hence possibly negative. *)
  Variable keq : K -> K -> bool.
  Variable hash : K -> Z.

  (** map/cell.h MapCell *)
  Record cell := mkcell { ckey : K; cval : V; cdel : bool }.

  (** map.c:7-13; [cells] is the container, its length the capacity ([None] is a NULL entry);
      int overflow of size/capacity is not modelled. *)
  Record map := mkmap { cells : list (option cell); msize : nat }.
  Definition mcap (m : map) : nat := length (cells m).

  (** map.c:22-35 new_map *)
  Definition new_map : map := mkmap [None] 0.

  (** [hash_object(key) % capacity]: C remainder; a negative remainder is used as an array index,
      which is UB *)
  Definition slot (k : K) (cap : nat) : res nat :=
    let h := Z.rem (hash k) (Z.of_nat cap) in
    if (h <? 0)%Z then UB else Ok (Z.to_nat h).

  Definition cell_at (cs : list (option cell)) (i : nat) : res (option cell) :=
    match nth_error cs i with Some c => Ok c | None => UB end.

  Definition live_key (c : cell) (k : K) : bool := negb (cdel c) && keq (ckey c) k.

  (** loop of map.c:67-78 and 113-124: index of the first live cell with this key *)
  Fixpoint find_loop (fuel : nat) (cs : list (option cell)) (k : K) (orig h : nat)
    : res (option nat) :=
    match fuel with
    | O => Fuel
    | S f =>
        do oc <- cell_at cs h;
        match oc with
        | None => Ok None
        | Some c =>
            if live_key c k then Ok (Some h)
            else
              let h' := (h + 1) mod length cs in
              if h' =? orig then Ok None else find_loop f cs k orig h'
        end
    end.

  Definition map_find (m : map) (k : K) : res (option nat) :=
    do h <- slot k (mcap m);
    find_loop (mcap m) (cells m) k h h.

  (** map.c:57-81 map_get / map_get_with_default(NULL) *)
  Definition map_get (m : map) (k : K) : res (option V) :=
    do oi <- map_find m k;
    match oi with
    | None => Ok None
    | Some i =>
        do oc <- cell_at (cells m) i;
        match oc with
        | Some c => if cdel c then Ok None else Ok (Some (cval c))
        | None => UB
        end
    end.

  (** map.c:139-141 map_contains (values stored are never NULL pointers) *)
  Definition map_contains (m : map) (k : K) : res bool :=
    do o <- map_get m k; Ok (match o with Some _ => true | None => false end).

  (** loop of map.c:87-93: first NULL, deleted, or equal-key cell *)
  Fixpoint add_loop (fuel : nat) (cs : list (option cell)) (k : K) (h : nat) : res nat :=
    match fuel with
    | O => Fuel
    | S f =>
        do oc <- cell_at cs h;
        match oc with
        | None => Ok h
        | Some c =>
            if cdel c then Ok h
            else if keq (ckey c) k then Ok h
            else add_loop f cs k ((h + 1) mod length cs)
        end
    end.

  (** loop of map.c:223-225: first NULL cell *)
  Fixpoint rehash_loop (fuel : nat) (cs : list (option cell)) (h : nat) : res nat :=
    match fuel with
    | O => Fuel
    | S f =>
        do oc <- cell_at cs h;
        match oc with
        | None => Ok h
        | Some _ => rehash_loop f cs ((h + 1) mod length cs)
        end
    end.

  Definition write_cell (cs : list (option cell)) (i : nat) (c : cell) : res (list (option cell)) :=
    match list_set cs i (Some c) with Some cs' => Ok cs' | None => UB end.

  (** loop of map.c:212-227, over the remaining old cells *)
  Fixpoint rehash_all (old : list (option cell)) (new : list (option cell)) : res (list (option cell)) :=
    match old with
    | [] => Ok new
    | None :: t => rehash_all t new
    | Some c :: t =>
        if cdel c then rehash_all t new
        else
          do h <- slot (ckey c) (length new);
          do i <- rehash_loop (length new) new h;
          do new' <- write_cell new i c;
          rehash_all t new'
    end.

  (** map.c:206-232 update_capacity *)
  Definition update_capacity (m : map) (cap : nat) : res map :=
    do cs <- rehash_all (cells m) (repeat None cap);
    Ok (mkmap cs (msize m)).

  (** map.c:83-105 map_add *)
  Definition map_add (m : map) (k : K) (v : V) : res map :=
    do h <- slot k (mcap m);
    do i <- add_loop (mcap m) (cells m) k h;
    do cs <- write_cell (cells m) i (mkcell k v false);
    let m' := mkmap cs (msize m + 1) in
    if mcap m <=? 2 * (msize m' + 1) - 1
    then update_capacity m' (2 * (mcap m + 1) - 1)
    else Ok m'.

  (** map.c:107-137 map_remove *)
  Definition map_remove (m : map) (k : K) : res map :=
    do oi <- map_find m k;
    match oi with
    | None => Ok m
    | Some i =>
        do oc <- cell_at (cells m) i;
        match oc with
        | None => UB
        | Some c =>
            do cs <- write_cell (cells m) i (mkcell (ckey c) (cval c) true);
            let m' := mkmap cs (msize m - 1) in
            let std := 2 * (msize m' + 1) - 1 in
            if 2 * std <? mcap m then update_capacity m' std else Ok m'
        end
    end.

  (** map.c:143-204: the sequence of (key, value) pairs an iterator visits *)
  Definition map_iter (m : map) : list (K * V) :=
    flat_map (fun oc => match oc with
                        | Some c => if cdel c then [] else [(ckey c, cval c)]
                        | None => []
                        end) (cells m).

  (** a history of updates *)
  Inductive mop := MAdd (k : K) (v : V) | MRemove (k : K).

  Definition map_step (m : map) (o : mop) : res map :=
    match o with
    | MAdd k v => map_add m k v
    | MRemove k => map_remove m k
    end.

  Fixpoint map_run (m : map) (ops : list mop) : res map :=
    match ops with
    | [] => Ok m
    | o :: t => do m' <- map_step m o; map_run m' t
    end.
End Map.
Arguments cell K V : clear implicits.
Arguments map K V : clear implicits.
Arguments mop K V : clear implicits.

(** src/common/type.c:45-51 hash_integer.  Overflow for |x| >= 2^30 is UB in C; the callers use
    register numbers, character codes and label numbers far below that. *)
Definition hash_integer (x : Z) : Z := (if 0 <=? x then x * 2 else - x * 2 + 1)%Z.

(** src/common/type.c:63-74 hash_string, over the (signed) chars of a string *)
Definition hash_string (s : list Z) : Z :=
  fold_left (fun h c => Z.rem (c * 151 + h) 587)%Z s 0%Z.
