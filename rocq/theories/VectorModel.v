(** Model of src/vector/vector.c. *)
From Verif Require Import Base.

Section Vector.
  Context {A : Type}.

  (** vector.c:7-12.  [store] is the allocated block: one entry per allocated cell, [None] for a
      cell that has not been written since it was allocated; the capacity field equals its length
      except inside the functions below.  Element deletion is not modelled; copy_object is the
      identity on the modelled values. *)
  Record vector := mkvec { store : list (option A); vsize : nat; vcap : nat }.

  (** array read: an index outside the allocation is UB, and so is using an unwritten cell. *)
  Definition vread (st : list (option A)) (i : nat) : res A :=
    match nth_error st i with
    | Some (Some x) => Ok x
    | _ => UB
    end.

  (** array write *)
  Definition vwrite (st : list (option A)) (i : nat) (x : A) : res (list (option A)) :=
    match list_set st i (Some x) with
    | Some st' => Ok st'
    | None => UB
    end.

  (** realloc to [n] cells: keeps the common prefix, new cells are unwritten. *)
  Definition vrealloc (st : list (option A)) (n : nat) : list (option A) :=
    firstn n st ++ repeat None (n - length st).

  (** vector.c:14-23 new_vector *)
  Definition new_vector : vector := mkvec (repeat None 1) 0 1.

  (** vector.c:39-46 vector_push *)
  Definition vector_push (v : vector) (x : A) : res vector :=
    let '(st, cap) :=
      if vcap v <=? vsize v
      then (vrealloc (store v) (2 * vcap v), 2 * vcap v)
      else (store v, vcap v) in
    do st' <- vwrite st (vsize v) x;
    Ok (mkvec st' (vsize v + 1) cap).

  (** vector.c:48-56 vector_pop; popping an empty vector reads container[-1]: UB. *)
  Definition vector_pop (v : vector) : res (vector * A) :=
    match vsize v with
    | O => UB
    | S n =>
        do x <- vread (store v) n;
        if (1 <? vcap v) && (2 * n <? vcap v)
        then Ok (mkvec (vrealloc (store v) (vcap v / 2)) n (vcap v / 2), x)
        else Ok (mkvec (store v) n (vcap v), x)
    end.

  (** loop of vector.c:68-70 *)
  Fixpoint fill_loop (n : nat) (st : list (option A)) (i : nat) (x : A) : res (list (option A)) :=
    match n with
    | O => Ok st
    | S n' => do st' <- vwrite st i x; fill_loop n' st' (S i) x
    end.

  (** vector.c:58-73 vector_fill; [size] is a C int, negative sizes do nothing. *)
  Definition vector_fill (v : vector) (size : Z) (x : A) : res vector :=
    if (size <=? Z.of_nat (vsize v))%Z then Ok v
    else
      let n := Z.to_nat size in
      let '(st, cap) := if vcap v <? n then (vrealloc (store v) n, n) else (store v, vcap v) in
      do st' <- fill_loop (n - vsize v) st (vsize v) x;
      Ok (mkvec st' n cap).

  (** vector.c:75-82 vector_set: (new vector, return value); deleting the old element dereferences it *)
  Definition vector_set (v : vector) (index : Z) (x : A) : res (vector * bool) :=
    if ((index <? 0) || (Z.of_nat (vsize v) <=? index))%Z then Ok (v, false)
    else
      do _ <- vread (store v) (Z.to_nat index);
      do st' <- vwrite (store v) (Z.to_nat index) x;
      Ok (mkvec st' (vsize v) (vcap v), true).

  (** loop of vector.c:94-96, [i] counts down to [index] *)
  Fixpoint insert_loop (i : nat) (index : nat) (st : list (option A)) : res (list (option A)) :=
    match i with
    | O => Ok st
    | S i' =>
        if i <=? index then Ok st
        else
          do y <- vread st i';
          do st' <- vwrite st i y;
          insert_loop i' index st'
    end.

  (** vector.c:84-99 vector_insert *)
  Definition vector_insert (v : vector) (index : Z) (x : A) : res vector :=
    if ((index <? 0) || (Z.of_nat (vsize v) <? index))%Z then Ok v
    else
      let '(st, cap) :=
        if vcap v <=? vsize v
        then (vrealloc (store v) (2 * vcap v), 2 * vcap v)
        else (store v, vcap v) in
      do st1 <- insert_loop (vsize v) (Z.to_nat index) st;
      do st2 <- vwrite st1 (Z.to_nat index) x;
      Ok (mkvec st2 (vsize v + 1) cap).

  (** loop of vector.c:107-109: [n] iterations starting at [i] *)
  Fixpoint erase_loop (n : nat) (i : nat) (st : list (option A)) : res (list (option A)) :=
    match n with
    | O => Ok st
    | S n' =>
        do y <- vread st i;
        do st' <- vwrite st (i - 1) y;
        erase_loop n' (S i) st'
    end.

  (** vector.c:101-111 vector_erase *)
  Definition vector_erase (v : vector) (index : Z) : res vector :=
    if ((index <? 0) || (Z.of_nat (vsize v) <=? index))%Z then Ok v
    else
      let i := Z.to_nat index in
      do _ <- vread (store v) i;
      do st' <- erase_loop (vsize v - (i + 1)) (i + 1) (store v);
      Ok (mkvec st' (vsize v - 1) (vcap v)).

  (** vector.c:113-118 vector_at; [Ok None] is NULL *)
  Definition vector_at (v : vector) (index : Z) : res (option A) :=
    if ((index <? 0) || (Z.of_nat (vsize v) <=? index))%Z then Ok None
    else do x <- vread (store v) (Z.to_nat index); Ok (Some x).

  (** vector.c:120-122 vector_size *)
  Definition vector_size (v : vector) : nat := vsize v.

  (** loop of vector.c:125-127 *)
  Fixpoint extend_loop (n : nat) (i : nat) (v other : vector) : res vector :=
    match n with
    | O => Ok v
    | S n' =>
        do x <- vread (store other) i;
        do v' <- vector_push v x;
        extend_loop n' (S i) v' other
    end.

  (** vector.c:124-133 vector_extend with [other] a different vector: (vector, other) *)
  Definition vector_extend (v other : vector) : res (vector * vector) :=
    do v' <- extend_loop (vsize other) 0 v other;
    Ok (v', mkvec (vrealloc (store other) 1) 0 1).

  (** loop of vector.c:33-35 *)
  Fixpoint copy_loop (n : nat) (i : nat) (src dst : list (option A)) : res (list (option A)) :=
    match n with
    | O => Ok dst
    | S n' =>
        do x <- vread src i;
        do dst' <- vwrite dst i x;
        copy_loop n' (S i) src dst'
    end.

  (** vector.c:25-37 vector_copy *)
  Definition vector_copy (v : vector) : res vector :=
    do st <- copy_loop (vsize v) 0 (store v) (repeat None (vcap v));
    Ok (mkvec st (vsize v) (vcap v)).
End Vector.
Arguments vector A : clear implicits.
