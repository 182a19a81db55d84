(** What a whole C program means: static objects, functions and calls. *)
From Coq Require Import FMapPositive.
From Verif Require Import Base SrtModel X64Isa OpSpec TypeSpec CSem.
From Verif Require Machine.
Open Scope Z_scope.

(** A function: its parameters, its body and what is in scope before its parameters *)
Record func := mkfunc { f_params : list (option name * dtype); f_body : list srt; f_scopes : scopes }.
(** A static object: a variable or a string literal, its type and its initialiser *)
Inductive object := Variable_ (n : name) | String_ (id : Z).
Record static := mkstatic { o_name : object; o_type : dtype; o_init : option srt; o_scopes : scopes }.
Record unit_ := mkunit { u_scopes : scopes; u_functions : list (name * func); u_statics : list static }.

(** names of static objects; those of string literals are no identifiers *)
Definition string_name (id : Z) : name := bytes ".SL" ++ print_signed id.
Definition object_name (o : object) : name := match o with Variable_ n => n | String_ id => string_name id end.
(** a name at file scope; declaring it twice is left out *)
Definition global (n : name) (d : dtype) (Sc : scopes) : res scopes :=
  do b <- sym_can_define (s_syms Sc) n; do _ <- check b;
  do y <- sym_define_label (s_syms Sc) n d; Ok (mkscopes y (s_tags Sc)).
Definition add_static (n : object) (d : dtype) (i : option srt) (u : unit_) : unit_ :=
  if dtype_isobject d then mkunit (u_scopes u) (u_functions u) (u_statics u ++ [mkstatic n d i (u_scopes u)]) else u.
Definition set_scopes (Sc : scopes) (u : unit_) : unit_ := mkunit Sc (u_functions u) (u_statics u).
Fixpoint collect_decls (l : list srt) (u : unit_) : res unit_ :=
  match l with
  | [] => Ok u
  | Srt SRT_INIT_DECL _ _ (Srt SRT_IDENT_DECL (Some d) (SPName n) _ :: i) :: r =>
      do Sc <- global n d (u_scopes u);
      collect_decls r (add_static (Variable_ n) d (hd_error i) (set_scopes Sc u))
  | Srt SRT_INIT_DECL _ _ (Srt SRT_STR_DECL (Some d) (SPStrId id) _ :: i) :: r =>
      do Sc <- global (string_name id) d (u_scopes u);
      collect_decls r (add_static (String_ id) d (hd_error i) (set_scopes Sc u))
  | _ :: r => collect_decls r u
  end.
Fixpoint collect (l : list srt) (u : unit_) : res unit_ :=
  match l with
  | [] => Ok u
  | Srt SRT_TAG_DECL (Some d) (SPName n) _ :: r =>
      do Sc <- declare_tag n d (u_scopes u); collect r (set_scopes Sc u)
  | Srt SRT_DECL_LIST _ _ ds :: r => do u <- collect_decls ds u; collect r u
  | Srt SRT_FUNC_DEF _ _ [Srt SRT_IDENT_DECL (Some (DTYPE_FUNCTION ps t)) (SPName n) _; Srt SRT_CMPD_STMT _ _ body] :: r =>
      do Sc <- global n (DTYPE_FUNCTION ps t) (u_scopes u);
      collect r (mkunit Sc ((n, mkfunc ps body Sc) :: u_functions u) (u_statics u))
  | _ => Fatal
  end.
Definition translation_unit (s : srt) : res unit_ :=
  match s with
  | Srt SRT_TRAS_UNIT _ _ l => collect l (mkunit (mkscopes new_symtab new_tagtab) [] [])
  | _ => Fatal
  end.

(** * Addresses *)
Fixpoint place_statics (l : list static) (a : Z) : list (name * Z) :=
  match l with [] => [] | o :: r => (object_name (o_name o), a) :: place_statics r (a + 16 * ((sizeof (o_type o) + 15) / 16)) end.
Fixpoint find_static (n : name) (l : list (name * Z)) : option Z :=
  match l with [] => None | (m, a) :: r => if name_eqb n m then Some a else find_static n r end.

Section Program.
(** External functions: what they return, given bit patterns of the arguments *)
Variables (exts : list name) (ext : name -> list Z -> world -> option (Z * world)).
Variable u : unit_.

Definition statics : list (name * Z) := place_statics (u_statics u) Machine.DATA_BASE.
Definition label (n : name) : option Z :=
  match find_static n statics with
  | Some a => Some a
  | None =>
      match Machine.index_of n (map fst (u_functions u)) 0 with
      | Some k => Some (Machine.CODE_BASE + k)
      | None => match Machine.index_of n exts 0 with Some k => Some (Machine.EXT_BASE + k) | None => None end
      end
  end.
Definition places_at (frame : Z) : places := mkplaces label (fun i => label (string_name i)) frame.

(** parameters are objects of the frame, initialised with the arguments *)
Fixpoint bind_params (P : places) (ps : list (option name * dtype)) (args : list (size * Z)) (Sc : scopes) (W : world) : res (scopes * world) :=
  match ps, args with
  | [], [] => Ok (Sc, W)
  | (Some n, d) :: ps, (s, x) :: args =>
      do _ <- check (match kind d with Some (_, z) => size_eqb s z | None => false end);
      do y <- sym_define_memory (s_syms Sc) n d;
      let Sc := mkscopes y (s_tags Sc) in
      do a <- var_address P Sc n;
      do W <- store_as d a x W;
      bind_params P ps args Sc W
  | _, _ => Fatal
  end.
Definition frame_size (Sc : scopes) : Z := match s_syms Sc with sc :: _ => sc_nbytes sc | [] => 0 end.
(** the scope of the body: the frame starts empty *)
Definition function_scopes (f : func) : res scopes :=
  do y <- sym_set_nbytes (sym_enter (s_syms (f_scopes f))) 0;
  Ok (mkscopes y (tag_enter (s_tags (f_scopes f)))).

(** [sp]: everything below is free for the callee *)
Fixpoint call (fuel : nat) (sp : Z) (a : Z) (args : list (size * Z)) (W : world) {struct fuel} : res (Z * world) :=
  match fuel with
  | O => Fuel
  | S n =>
      if Machine.EXT_BASE <=? a then
        match nth_error exts (Z.to_nat (a - Machine.EXT_BASE)) with
        | Some e => match ext e (map snd args) W with Some r => Ok r | None => UB end
        | None => UB
        end
      else
        match (if a <? Machine.CODE_BASE then None else nth_error (u_functions u) (Z.to_nat (a - Machine.CODE_BASE))) with
        | None => UB
        | Some (_, f) =>
            let P := places_at sp in
            do Sc0 <- function_scopes f;
            do (Sc, W) <- bind_params P (f_params f) args Sc0 W;
            do Sc' <- afters (f_body f) Sc;
            do (r, W) <- exec_list (call n (sp - frame_size Sc' - 64)) P n None (f_body f) Sc W;
            match r with
            | Return (Some (_, x)) => Ok (x, W)
            | Return None | Normal => Ok (0, W)
            | _ => Fatal
            end
        end
  end.

Fixpoint zero (m : memory) (a : Z) (n : nat) : memory :=
  match n with O => m | S n => zero (poke m a 0) (a + 1) n end.
(** static objects are zero before their initialisers are applied (6.7.9p10); they must be in the region for them *)
Fixpoint initial (l : list (static * Z)) (W : world) : res world :=
  match l with
  | [] => Ok W
  | (o, a) :: r =>
      if (sizeof (o_type o) <? 0) || (Machine.HEAP_BASE <? a + sizeof (o_type o)) then UB else
      let W := set_wmem W (zero (w_mem W) a (Z.to_nat (sizeof (o_type o)))) in
      do W <- match o_init o with
              | Some i => initialise (fun _ _ _ => Fatal) (places_at 0) (o_scopes o) i (o_type o) a W
              | None => Ok W
              end;
      initial r W
  end.
(** exit status and output; there must be enough addresses for functions *)
Definition run_unit (fuel : nat) : res (Z * list Z) :=
  if (Machine.EXT_BASE <? Machine.CODE_BASE + Z.of_nat (length (u_functions u))) || (2 ^ 64 <? Machine.EXT_BASE + Z.of_nat (length exts)) then UB else
  let m := mkmem (PositiveMap.empty _)
             [(Machine.DATA_BASE, Machine.HEAP_BASE); (Machine.HEAP_BASE, Machine.HEAP_END); (Machine.STACK_LOW, Machine.STACK_HIGH)] 170 in
  do W <- initial (combine (u_statics u) (map snd statics)) (mkworld m Machine.HEAP_BASE []);
  match label (bytes "main") with
  | Some a => do (x, W) <- call fuel (Machine.STACK_HIGH - 4096) a [] W; Ok (low S4 x, w_out W)
  | None => Fatal
  end.
End Program.
Definition run_program (exts : list name) (ext : name -> list Z -> world -> option (Z * world)) (fuel : nat) (s : srt) : res (Z * list Z) :=
  do u <- translation_unit s; run_unit exts ext u fuel.
