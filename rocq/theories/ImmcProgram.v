(** What a whole program of intermediate code means: its data, its functions and calls. *)
From Coq Require Import FMapPositive.
From Verif Require Import Base ImmcModel X64Isa OpSpec X64Decode CSem ImmcSem.
From Verif Require Machine.
Open Scope Z_scope.

(** * Data *)
Fixpoint le_bytes (n : nat) (v : Z) : list Z := match n with O => [] | S n => v mod 256 :: le_bytes n (v / 256) end.
Definition data_of (c : immc) : option (list Z) :=
  match c with
  | IMMC_INT_DATA IMMC_DATA_BYTE i => Some (le_bytes 1 (lit_value i))
  | IMMC_INT_DATA IMMC_DATA_WORD i => Some (le_bytes 2 (lit_value i))
  | IMMC_INT_DATA IMMC_DATA_LONG i => Some (le_bytes 4 (lit_value i))
  | IMMC_INT_DATA IMMC_DATA_QUAD i => Some (le_bytes 8 (lit_value i))
  | IMMC_INT_DATA IMMC_DATA_ZERO i => Some (repeat 0 (Z.to_nat (lit_value i)))
  | IMMC_STR_DATA IMMC_DATA_STR l => Some (map (fun c => c mod 256) l)
  | _ => None
  end.
(** the data in front, and the rest of the code *)
Fixpoint take_data (c : list immc) : list Z :=
  match c with x :: r => match data_of x with Some b => b ++ take_data r | None => [] end | [] => [] end.
(** the variables and what is in them *)
Fixpoint variables (c : list immc) : list (name * list Z) :=
  match c with
  | [] => []
  | IMMC_LABEL IMMC_LABEL_VARIABLE _ n :: r => (n, take_data r) :: variables r
  | _ :: r => variables r
  end.
Fixpoint functions (c : list immc) : list name :=
  match c with
  | [] => []
  | IMMC_LABEL IMMC_LABEL_FUNCTION _ n :: r => n :: functions r
  | _ :: r => functions r
  end.

(** * Addresses *)
Fixpoint place_data (l : list (name * list Z)) (a : Z) : list (name * Z) :=
  match l with [] => [] | (n, b) :: r => (n, a) :: place_data r (a + 16 * ((Z.of_nat (length b) + 15) / 16)) end.
Fixpoint find_data (n : name) (l : list (name * Z)) : option Z :=
  match l with [] => None | (m, a) :: r => if name_eqb n m then Some a else find_data n r end.

Section Program.
Variables (exts : list name) (ext : name -> list Z -> world -> option (Z * world)).
Variable C : list immc.

(** functions are numbered from the last one, external functions have addresses of their own *)
Definition fnames : list name := rev (functions C).
Definition ilabel (n : name) : option Z :=
  match find_data n (place_data (variables C) Machine.DATA_BASE) with
  | Some a => Some a
  | None =>
      match Machine.index_of n fnames 0 with
      | Some k => Some (Machine.CODE_BASE + k)
      | None => match Machine.index_of n exts 0 with Some k => Some (Machine.EXT_BASE + k) | None => None end
      end
  end.
(** the size of the frame of the function whose code starts at [p] *)
Definition frame_of (p : nat) : option Z :=
  match nth_error C (S p) with
  | Some (IMMC_INST IMMC_INST_ENTER None (Some (IMMC_OPERAND_INT _ i)) None) => Some (lit_value i)
  | _ => None
  end.

(** [fuel] bounds the depth of calls and [k] the steps of each call *)
Fixpoint icall (k fuel : nat) (sp : Z) (a : Z) (args : list (size * Z)) (W : world) {struct fuel} : res (Z * world) :=
  match fuel with
  | O => Fuel
  | S n =>
      if Machine.EXT_BASE <=? a then
        match nth_error exts (Z.to_nat (a - Machine.EXT_BASE)) with
        | Some e => match ext e (map snd args) W with Some r => Ok r | None => UB end
        | None => UB
        end
      else
        match (if a <? Machine.CODE_BASE then None else nth_error fnames (Z.to_nat (a - Machine.CODE_BASE))) with
        | None => UB
        | Some f =>
            match label_at f C with
            | Some p =>
                match frame_of p with
                | Some z =>
                    match irun (icall k n (sp - z - 64)) ilabel sp args k C p (mkist (fun _ => None) [] None W) with
                    | IEnd q => Ok (match i_ret q with Some (_, x) => x | None => 0 end, i_world q)
                    | IAt _ _ => Fuel
                    | IWrong => UB
                    end
                | None => UB
                end
            | None => UB
            end
        end
  end.

Fixpoint poke_list (m : memory) (a : Z) (l : list Z) : memory :=
  match l with [] => m | b :: r => poke_list (poke m a b) (a + 1) r end.
Fixpoint fill (l : list (name * list Z)) (a : Z) (m : memory) : memory :=
  match l with [] => m | (_, b) :: r => fill r (a + 16 * ((Z.of_nat (length b) + 15) / 16)) (poke_list m a b) end.
(** exit status and output *)
Definition irun_program (k fuel : nat) : res (Z * list Z) :=
  let m := mkmem (PositiveMap.empty _)
             [(Machine.DATA_BASE, Machine.HEAP_BASE); (Machine.HEAP_BASE, Machine.HEAP_END); (Machine.STACK_LOW, Machine.STACK_HIGH)] 170 in
  let W := mkworld (fill (variables C) Machine.DATA_BASE m) Machine.HEAP_BASE [] in
  match ilabel (bytes "main") with
  | Some a => do (x, W) <- icall k fuel (Machine.STACK_HIGH - 4096) a [] W; Ok (low S4 x, w_out W)
  | None => Fatal
  end.
End Program.
