(** Specification of maps and sets, by the history of updates.  Independent of src/map, src/set. *)
From Verif Require Import Base.

Section Spec.
  Context {K V : Type}.
  Variable keq : K -> K -> bool.

  (** one update *)
  Inductive upd := UAdd (k : K) (v : V) | URemove (k : K).

  (** the mathematical finite map after a history (oldest update first) *)
  Definition upd_step (f : K -> option V) (o : upd) : K -> option V :=
    match o with
    | UAdd k v => fun k' => if keq k k' then Some v else f k'
    | URemove k => fun k' => if keq k k' then None else f k'
    end.
  Definition latest (ops : list upd) : K -> option V :=
    fold_left upd_step ops (fun _ => None).

  (** Histories in which a key is never re-added while present once some present key has been
      removed.  Histories without removal and histories that only add absent keys qualify. *)
  Fixpoint tidy_from (removed : bool) (f : K -> option V) (ops : list upd) : Prop :=
    match ops with
    | [] => True
    | o :: t =>
        match o with
        | UAdd k _ => removed = false \/ f k = None
        | URemove _ => True
        end /\
        tidy_from (match o with
                   | UAdd _ _ => removed
                   | URemove k => removed || match f k with Some _ => true | None => false end
                   end) (upd_step f o) t
    end.
  Definition tidy (ops : list upd) : Prop := tidy_from false (fun _ => None) ops.
End Spec.
Arguments upd K V : clear implicits.
