(** A check that code is orderly *)
From Verif Require Import Base ImmcModel ImmcSem RegallocModel RegSpec.
Open Scope Z_scope.

Definition memb (r : Z) (l : list Z) : bool := existsb (Z.eqb r) l.
Definition subset (a b : list Z) : bool := forallb (fun r => memb r b) a.
Definition merge (a b : list Z) : list Z := a ++ filter (fun r => negb (memb r a)) b.
Definition without (w : option Z) (l : list Z) : list Z := match w with Some s => filter (fun r => negb (r =? s)) l | None => l end.
(** one pass over the code from its end, with the sets of the pass before at the targets of jumps *)
Definition at_target (fn : list immc) (old : list (list Z)) (c : immc) : list Z :=
  match goes_to c with Some n => match label_at n fn with Some q => nth q old [] | None => [] end | None => [] end.
Fixpoint pass (fn : list immc) (old : list (list Z)) (l : list immc) : list (list Z) :=
  match l with
  | [] => []
  | c :: r =>
      let rest := pass fn old r in
      let next := if goes_on c then hd [] rest else [] in
      merge (reads c) (without (writes c) (merge next (at_target fn old c))) :: rest
  end.
Fixpoint passes (k : nat) (fn : list immc) (old : list (list Z)) : list (list Z) := match k with O => old | S k => passes k fn (pass fn old fn) end.
Definition live_sets (fn : list immc) : option (list (list Z)) :=
  let a := passes 2 fn (repeat [] (length fn)) in
  let b := pass fn a fn in
  if forallb (fun p => subset (fst p) (snd p)) (combine b a) then Some b else None.
Fixpoint check_code (fn : list immc) (all : list (list Z)) (sets : list (list Z)) (l : list immc) (p : nat) (written : list Z) : bool :=
  match l, sets with
  | [], _ => true
  | c :: r, s :: t =>
      subset s written
      && match writes c with Some x => subset (hd [] t) [x] || memb x (hd [] t) || forallb (fun w => w <? x) written | None => true end
      && match goes_to c with
         | Some n => match label_at n fn with Some q => (Nat.ltb p q) || match nth_error all q with Some [] => true | _ => false end | None => false end
         | None => true
         end
      && check_code fn all t r (S p) (match writes c with Some x => x :: written | None => written end)
  | _ :: _, [] => false
  end.
Definition check_orderly (fn : list immc) : option (bool * bool) :=
  match live_sets fn with
  | None => None
  | Some s => Some (check_code fn s s fn 0 [], match last_error fn with Some c => negb (goes_on c) | None => true end)
  end.
Fixpoint split_functions (f : nat) (C : list immc) : list (list immc) :=
  match f, C with
  | S f, c :: r => let (a, b) := span_external r in match c with IMMC_LABEL IMMC_LABEL_FUNCTION _ _ => (c :: a) :: split_functions f b | _ => split_functions f b end
  | _, _ => []
  end.
Definition check_function (fn : list immc) : bool := match check_orderly fn with Some (a, b) => a && b | None => false end.
Definition check_program (C : list immc) : bool := match C with c :: _ => external c | [] => true end && forallb check_function (split_functions (length C) C).
