(** Model of src/liveseq and src/regalloc: liveness intervals and register allocation. *)
From Verif Require Export MapModel SetModel ImmcModel.
Open Scope Z_scope.

(** * src/liveseq *)
(** liveness.h:6-9; liveness.c:10-15 sets both to the same index *)
Record liveness := mklv { first_def : Z; last_use : Z }.
Definition new_liveness (i : Z) : liveness := mklv i i.
(** liveseq.h:6-10, liveseq.c:11-17 *)
Record liveseq := mkls { ls_lvs : list liveness; ls_index : Z; ls_pos : Z }.
Definition new_liveseq : liveseq := mkls [] 0 (-1).
Definition at_Z {A} (l : list A) (i : Z) : res A := if i <? 0 then UB else deref (nth_error l (Z.to_nat i)).
(** liveseq.c:27-42 *)
Definition liveseq_isalive (s : liveseq) : res bool :=
  let n := Z.of_nat (length (ls_lvs s)) in
  if (n =? 0) || (ls_pos s >=? n) then Ok false
  else
    do l <- at_Z (ls_lvs s) (if ls_pos s <? 0 then 0 else ls_pos s);
    Ok ((first_def l <=? ls_index s) && (ls_index s <? last_use l)).
(** liveseq.c:44-73 *)
Definition liveseq_goto_next (s : liveseq) : res liveseq :=
  let i := ls_index s + 1 in
  let n := Z.of_nat (length (ls_lvs s)) in
  let p := ls_pos s in
  if (n =? 0) || (p >=? n) then Ok (mkls (ls_lvs s) i p)
  else if p <? 0 then
    do l <- at_Z (ls_lvs s) 0;
    Ok (mkls (ls_lvs s) i (if i >=? first_def l then 0 else p))
  else
    do l <- at_Z (ls_lvs s) p;
    if p =? n - 1 then Ok (mkls (ls_lvs s) i (if i >=? last_use l then n else p))
    else
      do l' <- at_Z (ls_lvs s) (p + 1);
      Ok (mkls (ls_lvs s) i (if i >=? first_def l' then p + 1 else p)).

(** * src/regalloc *)
Definition iset := set Z.
Definition iadd : iset -> Z -> res iset := set_add Z.eqb hash_integer.
Definition iremove : iset -> Z -> res iset := set_remove Z.eqb hash_integer.
Definition iunion : iset -> iset -> res iset := set_union Z.eqb hash_integer.
Definition iequals : iset -> iset -> res bool := set_equals Z.eqb hash_integer.

(** basicblock.h:7-12, basicblock.c:10-17 *)
Record block := mkblock { b_immcs : list immc; b_in : iset; b_out : iset; b_succ : iset }.
Definition new_basicblock (l : list immc) : block := mkblock l new_set new_set new_set.

(** regalloc.c:65-84: the leading immc and the following ones up to the next function or variable
    label; returns that sequence and the rest *)
Definition is_external_label (c : immc) : bool :=
  match c with
  | IMMC_LABEL (IMMC_LABEL_FUNCTION | IMMC_LABEL_VARIABLE) _ _ => true
  | _ => false
  end.
Fixpoint span_external (l : list immc) : list immc * list immc :=
  match l with
  | [] => ([], [])
  | c :: r => if is_external_label c then ([], l) else let (a, b) := span_external r in (c :: a, b)
  end.

(** regalloc.c:98-135: [cur] is block_immcs. Before a label and after a jump the current block ends;
    an empty block is dropped. *)
Definition is_label (c : immc) : bool := match c with IMMC_LABEL _ _ _ => true | _ => false end.
Definition close_block (cur : list immc) : list block := match cur with [] => [] | _ => [new_basicblock cur] end.
Fixpoint create_basic_blocks (l : list immc) (cur : list immc) : list block :=
  match l with
  | [] => close_block cur
  | c :: r =>
      if immc_isjumpinst c then close_block (cur ++ [c]) ++ create_basic_blocks r []
      else if is_label c then
        (* regalloc.c:106,130: when the label is the last immc its block is never pushed *)
        close_block cur ++ match r with [] => [] | _ => create_basic_blocks r [c] end
      else create_basic_blocks r (cur ++ [c])
  end.

(** regalloc.c:138-151: label name to block number, the latest block first *)
Fixpoint label_blocks (l : list block) (i : Z) (acc : list (name * Z)) : list (name * Z) :=
  match l with
  | [] => acc
  | b :: r =>
      label_blocks r (i + 1) (match b_immcs b with IMMC_LABEL _ _ n :: _ => (n, i) :: acc | _ => acc end)
  end.
Fixpoint find_label (m : list (name * Z)) (n : name) : option Z :=
  match m with
  | [] => None
  | (k, v) :: r => if name_eqb k n then Some v else find_label r n
  end.
(** regalloc.c:155 *)
Definition last_error {A} (l : list A) : option A := nth_error l (length l - 1).
(** regalloc.c:153-164 for one block *)
Definition connect_block (m : list (name * Z)) (n i : Z) (b : block) : res block :=
  do tail <- deref (last_error (b_immcs b));
  do s <- (if immc_isjumpinst tail then
             match tail with
             | IMMC_INST _ (Some (IMMC_OPERAND_LABEL l)) _ _ => do t <- deref (find_label m l); iadd (b_succ b) t
             | _ => UB
             end
           else Ok (b_succ b));
  let falls := match tail with IMMC_INST IMMC_INST_JMP _ _ _ => false | _ => true end in
  do s <- (if (i <? n - 1) && falls then iadd s (i + 1) else Ok s);
  Ok (mkblock (b_immcs b) (b_in b) (b_out b) s).
Fixpoint connect_loop (m : list (name * Z)) (n i : Z) (l : list block) : res (list block) :=
  match l with
  | [] => Ok []
  | b :: r => do b <- connect_block m n i b; do r <- connect_loop m n (i + 1) r; Ok (b :: r)
  end.
(** regalloc.c:137-168 *)
Definition connect_basic_blocks (l : list block) : res (list block) :=
  connect_loop (label_blocks l 0 []) (Z.of_nat (length l)) 0 l.

(** the register an operand reads, when used as a source: regalloc.c:215, 220, 263, 269, 399, 405 *)
Definition src_reg (o : option ope) : option Z :=
  match o with
  | Some (IMMC_OPERAND_REG _ r) | Some (IMMC_OPERAND_PTR r) => Some (reg_id r)
  | _ => None
  end.
Definition add_src (s : iset) (o : option ope) : res iset :=
  match src_reg o with Some r => iadd s r | None => Ok s end.
(** regalloc.c:200-223, one immc *)
Definition flow_immc (s : iset) (c : immc) : res iset :=
  match c with
  | IMMC_INST _ d f g =>
      do s <- match d with
              | Some (IMMC_OPERAND_REG _ r) => iremove s (reg_id r)
              | Some (IMMC_OPERAND_PTR r) => iadd s (reg_id r)
              | _ => Ok s
              end;
      do s <- add_src s f;
      add_src s g
  | _ => Ok s
  end.
(** from the last immc to the first *)
Fixpoint flow_immcs (l : list immc) (s : iset) : res iset :=
  match l with
  | [] => Ok s
  | c :: r => do s <- flow_immcs r s; flow_immc s c
  end.
(** regalloc.c:190-197 *)
Fixpoint succ_input (g : list block) (succ : list Z) (s : iset) : res iset :=
  match succ with
  | [] => Ok s
  | i :: r => do b <- at_Z g i; do s <- iunion s (b_in b); succ_input g r s
  end.
(** regalloc.c:186-235: the block with its new input and output, and whether they are unchanged *)
Definition update_register_flow (g : list block) (b : block) : res (block * bool) :=
  do out <- succ_input g (set_items (b_succ b)) new_set;
  do inp <- flow_immcs (b_immcs b) out;
  do e1 <- iequals inp (b_in b);
  do e2 <- iequals out (b_out b);
  Ok (mkblock (b_immcs b) inp out (b_succ b), e1 && e2).
(** regalloc.c:177-181: blocks [n-1], ..., 0 *)
Fixpoint flow_round (n : nat) (g : list block) (conv : bool) : res (list block * bool) :=
  match n with
  | O => Ok (g, conv)
  | S i =>
      do b <- deref (nth_error g i);
      do (b, c) <- update_register_flow g b;
      do g <- deref (list_set g i b);
      flow_round i g (conv && c)
  end.
(** regalloc.c:170-184 *)
Fixpoint analyze_register_flow (fuel : nat) (g : list block) : res (list block) :=
  match fuel with
  | O => Fuel
  | S f =>
      do (g, conv) <- flow_round (length g) g true;
      if conv then Ok g else analyze_register_flow f g
  end.

(** vector_fill (vector.c:58-73) and an update of one field through vector_at (vector.c:113-118),
    on lists; PropContainers justifies the list view *)
Definition fill {A} (l : list A) (n : Z) (x : A) : list A := l ++ repeat x (Z.to_nat n - length l).
Definition set_last_use (l : list liveness) (i v : Z) : res (list liveness) :=
  do x <- at_Z l i; deref (list_set l (Z.to_nat i) (mklv (first_def x) v)).
Definition use_src (l : list liveness) (o : option ope) (v : Z) : res (list liveness) :=
  match src_reg o with Some r => set_last_use l r v | None => Ok l end.
(** regalloc.c:256-282, one immc at position [i] *)
Definition liveness_immc (l : list liveness) (c : immc) (i : Z) : res (list liveness) :=
  match c with
  | IMMC_INST _ d f g =>
      do l <- use_src l f i;
      do l <- use_src l g i;
      match d with
      | Some (IMMC_OPERAND_REG _ r) => Ok (fill l (reg_id r + 1) (new_liveness i))
      | Some (IMMC_OPERAND_PTR r) => set_last_use l (reg_id r) i
      | _ => Ok l
      end
  | _ => Ok l
  end.
Fixpoint liveness_immcs (l : list liveness) (cs : list immc) (i : Z) : res (list liveness) :=
  match cs with
  | [] => Ok l
  | c :: r => do l <- liveness_immc l c i; liveness_immcs l r (i + 1)
  end.
Fixpoint use_all (l : list liveness) (rs : list Z) (v : Z) : res (list liveness) :=
  match rs with
  | [] => Ok l
  | r :: t => do l <- set_last_use l r v; use_all l t v
  end.
(** regalloc.c:254-290 *)
Definition update_register_liveness (l : list liveness) (b : block) (off : Z) : res (list liveness) :=
  do l <- liveness_immcs l (b_immcs b) off;
  use_all l (set_items (b_out b)) (off + Z.of_nat (length (b_immcs b))).
(** regalloc.c:237-252; [off] is regalloc->immc_offset *)
Fixpoint analyze_register_liveness (l : list liveness) (g : list block) (off : Z) : res (list liveness) :=
  match g with
  | [] => Ok l
  | b :: r =>
      do l <- update_register_liveness l b off;
      analyze_register_liveness l r (off + Z.of_nat (length (b_immcs b)))
  end.

(** regalloc.c:319-334 *)
Definition free_status (lvs : list liveness) (first : Z) (s : Z) : res Z :=
  if s =? -1 then Ok s
  else do l <- at_Z lvs s; Ok (if last_use l <=? first then -1 else s).
Fixpoint free_unused (lvs : list liveness) (first : Z) (ss : list Z) : res (list Z) :=
  match ss with
  | [] => Ok []
  | s :: r => do s <- free_status lvs first s; do r <- free_unused lvs first r; Ok (s :: r)
  end.
(** regalloc.c:340-350: the first free register *)
Fixpoint first_free (ss : list Z) (i : Z) : option Z :=
  match ss with
  | [] => None
  | s :: r => if s =? -1 then Some i else first_free r (i + 1)
  end.
Definition set_Z {A} (l : list A) (i : Z) (x : A) : list A :=
  if i <? 0 then l else match list_set l (Z.to_nat i) x with Some l => l | None => l end.
(** regalloc.c:363-374: (virtual, real, length) of the longest range *)
Fixpoint spill_loop (lvs : list liveness) (ss : list Z) (i : Z) (v real len : Z) : res (Z * Z) :=
  match ss with
  | [] => Ok (v, real)
  | s :: r =>
      do l <- at_Z lvs s;
      let n := last_use l - first_def l in
      if len >=? n then spill_loop lvs r (i + 1) v real len else spill_loop lvs r (i + 1) s i n
  end.
(** regalloc.c:292-384, one virtual register: statuses and allocations *)
Definition allocate_one (lvs : list liveness) (v : Z) (ss allocs : list Z) : res (list Z * list Z) :=
  do l <- at_Z lvs v;
  do ss <- free_unused lvs (first_def l) ss;
  match first_free ss 0 with
  | Some r => Ok (set_Z ss r v, set_Z allocs v r)
  | None =>
      do (sv, sr) <- spill_loop lvs ss 0 v (-1) (last_use l - first_def l);
      if sv =? v then Ok (ss, set_Z allocs v (-1))
      else Ok (set_Z ss sr v, set_Z (set_Z allocs sv (-1)) v sr)
  end.
Fixpoint allocate_loop (n : nat) (lvs : list liveness) (v : Z) (ss allocs : list Z) : res (list Z) :=
  match n with
  | O => Ok allocs
  | S m => do (ss, allocs) <- allocate_one lvs v ss allocs; allocate_loop m lvs (v + 1) ss allocs
  end.
Definition determine_allocation (lvs : list liveness) (nreal : nat) : res (list Z) :=
  allocate_loop (length lvs) lvs 0 (repeat (-1) nreal) (repeat (-1) (length lvs)).

(** regalloc.c:386-419 *)
Definition alloc_reg (allocs : list Z) (r : ireg) : res ireg :=
  do i <- at_Z allocs (reg_id r); Ok (mkireg i (reg_unsigned r)).
Definition alloc_ope (allocs : list Z) (o : option ope) : res (option ope) :=
  match o with
  | Some (IMMC_OPERAND_REG s r) => do r <- alloc_reg allocs r; Ok (Some (IMMC_OPERAND_REG s r))
  | Some (IMMC_OPERAND_PTR r) => do r <- alloc_reg allocs r; Ok (Some (IMMC_OPERAND_PTR r))
  | _ => Ok o
  end.
Definition alloc_immc (allocs : list Z) (c : immc) : res immc :=
  match c with
  | IMMC_INST t d f g =>
      do f <- alloc_ope allocs f;
      do g <- alloc_ope allocs g;
      do d <- alloc_ope allocs d;
      Ok (IMMC_INST t d f g)
  | _ => Ok c
  end.
Fixpoint gen_allocated_immcs (allocs : list Z) (l : list immc) : res (list immc) :=
  match l with
  | [] => Ok []
  | c :: r => do c <- alloc_immc allocs c; do r <- gen_allocated_immcs allocs r; Ok (c :: r)
  end.
(** regalloc.c:421-429; a register that got no real register (-1) makes vector_at return NULL *)
Fixpoint update_liveseqs (seqs : list liveseq) (lvs : list liveness) (allocs : list Z) : res (list liveseq) :=
  match lvs, allocs with
  | [], _ => Ok seqs
  | l :: lvs, a :: allocs =>
      do s <- at_Z seqs a;
      update_liveseqs (set_Z seqs a (mkls (ls_lvs s ++ [l]) (ls_index s) (ls_pos s))) lvs allocs
  | _ :: _, [] => UB
  end.

(** bound for the rounds of the flow analysis, not in the code *)
Definition max_reg (l : list immc) : Z :=
  fold_left (fun m c => match c with
                        | IMMC_INST _ (Some (IMMC_OPERAND_REG _ r)) _ _ => Z.max m (reg_id r)
                        | _ => m
                        end) l (-1).
Definition flow_fuel (l : list immc) (g : list block) : nat :=
  2 + 2 * length g * (2 + Z.to_nat (max_reg l)).

(** regalloc.c:45-59, one function starting at immc number [off] *)
Definition allocate_function (nreal : nat) (fn : list immc) (off : Z) (seqs : list liveseq) : res (list immc * list liveseq) :=
  do g <- connect_basic_blocks (create_basic_blocks fn []);
  do g <- analyze_register_flow (flow_fuel fn g) g;
  do lvs <- analyze_register_liveness [] g off;
  do allocs <- determine_allocation lvs nreal;
  do cs <- gen_allocated_immcs allocs fn;
  do seqs <- update_liveseqs seqs lvs allocs;
  Ok (cs, seqs).
(** regalloc.c:32-60; the fuel bounds the number of external sequences *)
Fixpoint allocate_loop_ext (fuel : nat) (nreal : nat) (l : list immc) (off : Z) (seqs : list liveseq) : res (list immc * list liveseq) :=
  match l with
  | [] => Ok ([], seqs)
  | c :: r =>
      match fuel with
      | O => Fuel
      | S f =>
          let (a, rest) := span_external r in
          let ext := c :: a in
          match c with
          | IMMC_LABEL t _ _ =>
              do (cs, seqs) <- match t with
                               | IMMC_LABEL_FUNCTION => allocate_function nreal ext off seqs
                               | _ => Ok (ext, seqs)
                               end;
              do (cs', seqs) <- allocate_loop_ext f nreal rest (off + Z.of_nat (length ext)) seqs;
              Ok (cs ++ cs', seqs)
          | _ => UB
          end
      end
  end.
(** regalloc.c:26-63 regalloc_allocate_regs *)
Definition allocate_regs (nreal : nat) (l : list immc) : res (list immc * list liveseq) :=
  allocate_loop_ext (length l) nreal l 0 (repeat new_liveseq nreal).
