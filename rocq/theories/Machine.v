(** Running an assembled program: loading, calls, external functions. *)
From Coq Require Import FMapPositive.
From Verif Require Import Base X64Decode X64Isa.
Open Scope Z_scope.

(** Address space of a loaded program: [CODE_BASE + k] is instruction [k], [EXT_BASE + k] is external
    function [k], the data, heap and stack regions are readable and writable. *)
Definition CODE_BASE : Z := 65536.
Definition EXT_BASE : Z := 1048576.
Definition DATA_BASE : Z := 2097152.
Definition HEAP_BASE : Z := 4194304.
Definition HEAP_END : Z := 4259840.
Definition STACK_LOW : Z := 8323072.
Definition STACK_HIGH : Z := 8388608.
Definition EXIT_ADDRESS : Z := 16.

Fixpoint assoc (n : name) (l : list (name * Z)) : option Z :=
  match l with [] => None | (m, v) :: r => if name_eqb n m then Some v else assoc n r end.

(** sequential layout of the two sections *)
Record image := mkimage { code : PositiveMap.t insn; ncode : Z; text_labels : list (name * Z); data_labels : list (name * Z);
                          data : memory; data_end : Z }.
Fixpoint put_bytes (m : memory) (a : Z) (l : list Z) : memory :=
  match l with [] => m | b :: r => put_bytes (poke m a b) (a + 1) r end.
Fixpoint lay_out (l : list item) (in_text : bool) (im : image) : option image :=
  match l with
  | [] => Some im
  | Label s n :: r =>
      let t := match s with Text => true | Data => false | Same => in_text end in
      match assoc n (text_labels im), assoc n (data_labels im) with
      | None, None =>
          lay_out r t (if t then mkimage (code im) (ncode im) ((n, ncode im) :: text_labels im) (data_labels im) (data im) (data_end im)
                       else mkimage (code im) (ncode im) (text_labels im) ((n, data_end im) :: data_labels im) (data im) (data_end im))
      | _, _ => None
      end
  | Bytes b :: r =>
      if in_text then None
      else lay_out r in_text (mkimage (code im) (ncode im) (text_labels im) (data_labels im)
                                (put_bytes (data im) (data_end im) b) (data_end im + Z.of_nat (length b)))
  | Insn i :: r =>
      if in_text then
        lay_out r in_text (mkimage (PositiveMap.add (cell (ncode im)) i (code im)) (ncode im + 1) (text_labels im) (data_labels im) (data im) (data_end im))
      else None
  end.
Definition load_program (l : list item) (junk : Z) : option image :=
  lay_out l true (mkimage (PositiveMap.empty _) 0 [] [] (mkmem (PositiveMap.empty _) [] junk) DATA_BASE).

(** External functions: by name, the heap pointer and the state at the call (arguments in registers, the
    return address not yet pushed); the state at the return, the heap pointer and what is printed *)
Definition extern := name -> Z -> state -> option (state * Z * list Z).

Section Run.
  Variable im : image.
  Variable exts : list name.
  Variable ext : extern.

  Fixpoint index_of (n : name) (l : list name) (i : Z) : option Z :=
    match l with [] => None | m :: r => if name_eqb n m then Some i else index_of n r (i + 1) end.
  Definition label_address (n : name) : option Z :=
    match assoc n (data_labels im) with
    | Some a => Some a
    | None =>
        match assoc n (text_labels im) with
        | Some k => Some (CODE_BASE + k)
        | None => match index_of n exts 0 with Some k => Some (EXT_BASE + k) | None => None end
        end
    end.

  Record config := mkconfig { pc : Z; st : state; heap : Z; out : list Z }.
  Inductive result := Running (c : config) | Exit (status : Z) (out : list Z) | Wrong.

  Definition enter (k ret : Z) (s : state) (c : config) : result :=
    match push (CODE_BASE + ret) s with Some s => Running (mkconfig k s (heap c) (out c)) | None => Wrong end.
  Definition call_ext (n : name) (s : state) (c : config) : result :=
    match ext n (heap c) s with
    | Some (s, h, o) => Running (mkconfig (pc c + 1) s h (rev_append o (out c)))
    | None => Wrong
    end.
  Definition step (c : config) : result :=
    match PositiveMap.find (cell (pc c)) (code im) with
    | None => Wrong
    | Some i =>
        match exec label_address i (st c) with
        | Next s => Running (mkconfig (pc c + 1) s (heap c) (out c))
        | Goto l s => match assoc l (text_labels im) with Some k => Running (mkconfig k s (heap c) (out c)) | None => Wrong end
        | Calls l s => match assoc l (text_labels im) with Some k => enter k (pc c + 1) s c | None => call_ext l s c end
        | Calls_at a s =>
            if (CODE_BASE <=? a) && (a <? CODE_BASE + ncode im) then enter (a - CODE_BASE) (pc c + 1) s c
            else if EXT_BASE <=? a then
              match nth_error exts (Z.to_nat (a - EXT_BASE)) with Some n => call_ext n s c | None => Wrong end
            else Wrong
        | Returns s =>
            match pop s with
            | Some (a, s) =>
                if a =? EXIT_ADDRESS then Exit (low S4 (rax (regs s))) (rev (out c))
                else if (CODE_BASE <=? a) && (a <? CODE_BASE + ncode im) then Running (mkconfig (a - CODE_BASE) s (heap c) (out c))
                else Wrong
            | None => Wrong
            end
        | Fault => Wrong
        end
    end.
  Fixpoint steps (fuel : nat) (c : config) : result :=
    match fuel with
    | O => Running c
    | S n => match step c with Running c => steps n c | r => r end
    end.

  (** At the call of main: the stack aligned before the return address, every other register arbitrary *)
  Definition start : result :=
    match assoc (bytes "main") (text_labels im) with
    | None => Wrong
    | Some k =>
        let j := 81985529216486895 in
        let m := mkmem (cells (data im)) [(DATA_BASE, data_end im); (HEAP_BASE, HEAP_END); (STACK_LOW, STACK_HIGH)] (junk (data im)) in
        match push EXIT_ADDRESS (mkstate (mkregs j j j j (STACK_HIGH - 4096) j j j j j j j j j j j) None m) with
        | Some s => Running (mkconfig k s HEAP_BASE [])
        | None => Wrong
        end
    end.
  Definition run (fuel : nat) : result := match start with Running c => steps fuel c | r => r end.
End Run.
