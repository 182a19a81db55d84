(** What a declaration declares: the resolver gives a written declarator the type it was written for. *)
From Verif Require Import Base LiteralModel LexerModel AstModel DtypeModel SymtabModel SrtModel ParserModel ResolverModel Grammar WriteSpec WriteProofs.
From Verif Require TypeProofs.
Open Scope nat_scope.

Fixpoint dlinks (t : type) : list link :=
  match t with
  | TBasic _ => []
  | TPointer t => LPointer :: dlinks t
  | TArray n t => LArray n :: dlinks t
  | TFunction ps t => LFunction (map (fun p => (fst p, adjust (meaning (snd p)))) ps) :: dlinks t
  | TParens t => dlinks t
  end.
Lemma connect_links t : dtype_connect (dlinks t) (meaning_basic (basic_of t)) = meaning t.
Proof. induction t as [b|t IH|n t IH|ps t _ IH|t IH] using type_rect'; cbn; try rewrite IH; reflexivity. Qed.
(** the link read last and what follows it *)
Definition fits (socket : list link) (t : type) : Prop :=
  match socket with
  | LArray _ :: _ => match meaning t with DTYPE_VOID | DTYPE_FUNCTION _ _ => False | _ => True end
  | LFunction _ :: _ => match meaning t with DTYPE_ARRAY _ _ | DTYPE_FUNCTION _ _ => False | _ => True end
  | _ => True
  end.
Lemma basic_complete b : dtype_isincomplete (meaning_basic b) = match b with BVoid | BStruct _ | BEnum _ | BTypedef _ => true | _ => false end.
Proof. destruct b; reflexivity. Qed.
Definition keyword (b : basic) : Prop := match b with BStruct _ | BEnum _ | BTypedef _ => False | _ => True end.
Lemma proper_keyword t : proper t -> keyword (basic_of t).
Proof. induction t as [b|t IH|n t IH|ps t _ IH|t IH] using type_rect'; cbn; tauto. Qed.
Lemma specs_run' f b ty st : keyword b -> resolve_decl_specifiers (resolvers (S f)) (Ast ty PNone (specifier_trees b)) st = rok (meaning_basic b) st.
Proof. intros K. unfold resolve_decl_specifiers. cbn [resolvers k_specs]. destruct b; try reflexivity; destruct K. Qed.
Lemma has_dup_false l : NoDup l -> has_dup l = false.
Proof.
  induction 1 as [|n l N D IH]; cbn; [reflexivity|]. rewrite IH, orb_false_r. destruct (existsb (name_eqb n) l) eqn:E; [|reflexivity].
  apply existsb_exists in E. destruct E as (m & I & E). apply TypeProofs.name_eqb_eq in E. subst m. destruct (N I).
Qed.
Lemma names_run ps : some_names (map (fun p => (fst p, adjust (meaning (snd p)))) ps) = names_of ps.
Proof. induction ps as [|[[n|] p] ps IH]; cbn; rewrite ?IH; reflexivity. Qed.
Definition runs (t : type) : Prop := proper t -> forall f socket st o, ast_size (declarator t (leaf o)) <= f -> fits socket t ->
  k_declor (resolvers f) (meaning_basic (basic_of t)) socket (declarator t (leaf o)) st = rok (o, rev socket ++ dlinks t) st.
Lemma meaning_complete t : meaning t <> DTYPE_VOID -> dtype_isincomplete (meaning t) = false.
Proof.
  intros V. induction t as [b|t IH|n t IH|ps t _ IH|t IH] using type_rect'; cbn in *; auto. destruct b; cbn in *; auto; destruct (V eq_refl).
Qed.
Lemma param_run f p st : runs (snd p) -> proper (snd p) -> meaning (snd p) <> DTYPE_VOID -> ast_size (declarator (snd p) (leaf (fst p))) <= f ->
  resolve_parameter_decl (resolvers f) (param_tree p) st = rok (fst p, adjust (meaning (snd p))) st.
Proof.
  intros R P V L. unfold resolve_parameter_decl, param_tree. cbn [child n0 nth_error ast_children bind deref]. destruct f as [|f]. { destruct (declarator (snd p) (leaf (fst p))); cbn in L; lia. }
  unfold n0 at 1. rewrite specs_run' by apply proper_keyword, P. cbn [rbind rok]. replace (DtypeModel.is_typedef (meaning_basic (basic_of (snd p)))) with false by (destruct (basic_of (snd p)); reflexivity).
  rewrite (R P); [|exact L|exact Logic.I]. cbn [rbind rok rev app]. rewrite connect_links. unfold adjust.
  pose proof (meaning_complete (snd p) V) as C. destruct (meaning (snd p)); cbn in *; try discriminate C; try reflexivity; rewrite C; reflexivity.
Qed.
Lemma params_run f ps st : Forall (fun p => runs (snd p)) ps -> fold_right and True (map (fun p => proper (snd p) /\ meaning (snd p) <> DTYPE_VOID) ps) ->
  Forall (fun p => ast_size (declarator (snd p) (leaf (fst p))) <= f) ps ->
  rmap (resolve_parameter_decl (resolvers f)) (map param_tree ps) st = rok (map (fun p => (fst p, adjust (meaning (snd p)))) ps) st.
Proof.
  induction 1 as [|p ps R F IH]; cbn [map rmap fold_right]; intros P L; [reflexivity|]. inversion L; subst. destruct P as [[P V] Q].
  rewrite param_run by auto. unfold rok at 1. cbn [bind]. rewrite IH by auto. reflexivity.
Qed.
Lemma void_list ps : ps <> [] -> fold_right and True (map (fun p => proper (snd p) /\ meaning (snd p) <> DTYPE_VOID) ps) ->
  ast_is_void_parameter_list (n0 AST_PARAM_LIST (map param_tree ps)) = Ok false.
Proof.
  intros N P. destruct ps as [|p ps]; [destruct (N eq_refl)|]. unfold ast_is_void_parameter_list, nchildren. cbn. rewrite map_length. destruct ps as [|q ps]; [|reflexivity]. cbn.
  destruct P as [[_ V] _]. destruct p as [o t]. cbn [fst snd] in *. assert (K : ast_is (declarator t (leaf o)) AST_ABS_DECLOR = true -> meaning t = meaning_basic (basic_of t)).
  { clear. induction t as [b|t IH|n t IH|ps t _ IH|t IH] using type_rect'; cbn; intros E; try discriminate E; auto. }
  destruct (ast_is (declarator t (leaf o)) AST_ABS_DECLOR).
  - rewrite (K eq_refl) in V. destruct (basic_of t); cbn; try reflexivity; destruct (V eq_refl).
  - destruct (basic_of t); cbn; reflexivity.
Qed.
Lemma wraps_small n : (0 < n < 2 ^ 31)%Z -> wraps 32 n = n.
Proof. intros H. unfold wraps. change (2 ^ 32)%Z with 4294967296%Z. change (2 ^ (32 - 1))%Z with 2147483648%Z. change (2 ^ 31)%Z with 2147483648%Z in H. cbv zeta. rewrite Z.mod_small by lia. destruct (Z.ltb_spec n 2147483648); lia. Qed.
Lemma declor_run t : runs t.
Proof.
  induction t as [b|t IH|n t IH|ps t F IH|t IH] using type_rect'; intros P f socket st o L T; cbn [declarator dlinks basic_of meaning proper] in *.
  - destruct f as [|f]; [destruct o; cbn in L; lia|]. rewrite app_nil_r. cbn [resolvers k_declor]. unfold resolve_declarator.
    replace (match meaning_basic b with DTYPE_TYPEDEF d => d | _ => meaning_basic b end) with (meaning_basic b) by (destruct b; reflexivity).
    rewrite basic_complete. destruct o as [m|]; cbn.
    + destruct socket as [|[|n|qs|] r]; try reflexivity; cbn in T; destruct b; cbn in *; try reflexivity; destruct T.
    + destruct socket as [|[|n|qs|] r]; try reflexivity; cbn in T; destruct b; cbn in *; try reflexivity; destruct T.
  - cbn in L. rewrite Nat.add_0_r in L. destruct f as [|f]; [lia|]. cbn [resolvers k_declor]. unfold resolve_declarator. cbn [n0 ast_type child ast_children nth_error bind deref].
    rewrite IH; [|exact P|lia|exact Logic.I]. cbn [rev]. rewrite <- app_assoc. reflexivity.
  - cbn in L. destruct f as [|f]; [lia|]. cbn [resolvers k_declor]. unfold resolve_declarator. cbn [n0 ast_type].
    assert (W : wraps 32 n = n) by (apply wraps_small; apply P).
    assert (Z.leb n 0 = false) by (apply Z.leb_gt; apply P).
    assert (X : k_expr (resolvers f) (Ast AST_INT_EXPR (PInt (number n)) []) st = rok (new_iliteral_srt DTYPE_INT (number n)) st) by (destruct f; [lia|reflexivity]).
    assert (E : forall x, (match socket with LFunction _ :: _ => rerr st | _ => x end) = (x : rres (option name * list link))).
    { intros x. destruct socket as [|[]]; try reflexivity. destruct T. }
    rewrite E. unfold expr_at, child, n0. cbn [ast_children nth_error bind deref]. rewrite X. unfold rok at 1. cbn. rewrite H, W.
    rewrite IH; [|apply P|lia|apply P]. cbn [rev]. rewrite <- app_assoc. reflexivity.
  - destruct P as (P & D & Q & M). assert (L' : S (ast_size (declarator t (leaf o))) + ast_size (n0 AST_PARAM_LIST (params_tree ps)) <= f) by (assert (L' : S (ast_size (declarator t (leaf o)) + (ast_size (n0 AST_PARAM_LIST (params_tree ps)) + 0)) <= f) by exact L; lia).
    clear L. destruct f as [|f]; [lia|]. cbn [resolvers k_declor]. unfold resolve_declarator. cbn [n0 ast_type].
    assert (E : forall x, (match socket with LArray _ :: _ | LFunction _ :: _ => rerr st | _ => x end) = (x : rres (option name * list link))).
    { intros x. destruct socket as [|[]]; try reflexivity; destruct T. }
    rewrite E. change (match ps with [] => _ | _ => _ end) with (params_tree ps). unfold child, n0. cbn [ast_children nth_error bind deref].
    assert (X : resolve_parameter_list (resolvers f) (n0 AST_PARAM_LIST (params_tree ps)) st = rok (map (fun p => (fst p, adjust (meaning (snd p)))) ps) st).
    { unfold resolve_parameter_list. destruct ps as [|p ps]; [reflexivity|]. cbn [params_tree]. rewrite void_list; [|discriminate|exact P]. cbn [bind]. cbn [n0 ast_children].
      rewrite params_run; [|exact F|exact P|].
      - cbn [rbind rok]. rewrite names_run, has_dup_false by exact D. reflexivity.
      - cbn [ast_size n0] in L'. clear -L'. cbn [params_tree] in L'. assert (K : list_sum (map ast_size (map param_tree (p :: ps))) <= f) by lia. clear L'.
        remember (p :: ps) as l. clear Heql p ps. induction l as [|p l IH]; [constructor|]. cbn [map] in K. change (ast_size (param_tree p) + list_sum (map ast_size (map param_tree l)) <= f) in K. constructor; [|apply IH; lia].
        unfold param_tree in K at 1. cbn [ast_size n0 map list_sum fold_right] in K. lia. }
    fold (n0 AST_PARAM_LIST (params_tree ps)). rewrite X. cbn [rbind rok]. rewrite IH; [|exact Q|lia|exact M]. cbn [rev]. rewrite <- app_assoc. reflexivity.
  - apply IH; auto.
Qed.
Definition declaration_tree (t : type) (n : name) : ast :=
  n0 AST_TRAS_UNIT [n0 AST_DECL [n0 AST_DECL_SPECS (specifier_trees (basic_of t)); n0 AST_INIT_DECLOR_LIST [n0 AST_INIT_DECLOR [declarator t (Ast AST_IDENT_DECLOR (PName n) [])]]]].
Theorem declaration_run t n : proper t -> meaning t <> DTYPE_VOID ->
  resolve (declaration_tree t n) = Ok (new_srt SRT_TRAS_UNIT [new_srt SRT_DECL_LIST [new_srt SRT_INIT_DECL [new_identifier_srt SRT_IDENT_DECL (meaning t) n]]]).
Proof.
  intros P V. unfold resolve. set (f := resolve_fuel (declaration_tree t n)).
  assert (L : ast_size (declarator t (leaf (Some n))) <= f) by (unfold f, resolve_fuel, declaration_tree; cbn; lia).
  assert (R : forall ty st, resolve_decl_specifiers (resolvers f) (Ast ty PNone (specifier_trees (basic_of t))) st = rok (meaning_basic (basic_of t)) st).
  { destruct f as [|f']; [exfalso; destruct (declarator t (leaf (Some n))); cbn in L; lia|]. intros ty st. apply specs_run', proper_keyword, P. }
  pose proof (fun st => declor_run t P f [] st (Some n) L Logic.I) as D. change (leaf (Some n)) with (Ast AST_IDENT_DECLOR (PName n) []) in D. cbn [rev app] in D.
  assert (I : forall st, sym_can_define (r_syms st) n = Ok true -> length (r_syms st) = 1 ->
    resolve_init_declarator (resolvers f) (meaning_basic (basic_of t)) (n0 AST_INIT_DECLOR [declarator t (Ast AST_IDENT_DECLOR (PName n) [])]) st =
    rok (new_srt SRT_INIT_DECL [new_identifier_srt SRT_IDENT_DECL (meaning t) n]) (set_syms (sym_add (r_syms st) n (mksym SYMBOL_LABEL (meaning t)) (match r_syms st with [] => 0%Z | sc :: _ => sc_nbytes sc end)) st)).
  { intros st F Len. unfold resolve_init_declarator, child, n0. cbn [ast_children nth_error deref bind]. rewrite D. cbn [rbind rok deref bind]. rewrite F. cbn [bind negb].
    replace (match meaning_basic (basic_of t) with DTYPE_TYPEDEF d => _ | _ => dtype_connect (dlinks t) (meaning_basic (basic_of t)) end) with (meaning t)
      by (rewrite connect_links; destruct (basic_of t); reflexivity).
    rewrite meaning_complete by exact V. rewrite Len. cbn [Nat.eqb orb]. unfold sym_define_label. rewrite F. cbn [bind].
    destruct (r_syms st) as [|sc r] eqn:Es; [discriminate Len|]. reflexivity. }
  unfold n0 in I. unfold resolve_translation_unit, declaration_tree, n0. cbn [ast_children rmap]. unfold resolve_external. change (ast_is (Ast AST_DECL PNone _) AST_FUNC_DEF) with false. cbv iota.
  unfold resolve_decl, child. cbn [ast_children nth_error deref bind]. rewrite R. cbn [rbind rok]. change (nchildren _ =? 1) with false. cbv iota. cbn [rmap].
  rewrite I; reflexivity.
Qed.
Lemma proper_clear t e : proper t -> clear e t /\ type_typedefs t = [].
Proof.
  revert e. induction t as [b|t IH|n t IH|ps t F IH|t IH] using type_rect'; cbn [proper clear type_typedefs]; intros e P; auto.
  - destruct b; auto; destruct P.
  - destruct P as (_ & P & _). auto.
  - destruct P as (Q & _ & P & _). destruct (IH false P) as [C E].
    assert (X : fold_right and True (map (fun p => clear (match fst p with Some _ => false | None => true end) (snd p)) ps) /\ concat (map (fun p => type_typedefs (snd p)) ps) = []).
    { clear -F Q. induction F as [|p ps A F IH]; cbn in *; auto. destruct Q as [[Q _] R]. destruct (A (match fst p with Some _ => false | None => true end) Q) as [B ->]. destruct (IH R) as [? ->]. auto. }
    destruct X as [X ->]. rewrite E. split; [|reflexivity]. split; [|split; [exact X|exact C]]. intros _. destruct ps as [|[o p] ps]; [exact Logic.I|].
    cbn in Q. destruct Q as [[Q _] _]. apply proper_keyword in Q. destruct (basic_of p); auto.
Qed.
(** the tokens of the declaration, parsed and resolved *)
Theorem declare_means t n : proper t -> meaning t <> DTYPE_VOID -> exists a,
  parse_tokens (declare t n ++ [TTok Semicolon; TTok CtEOF]) = Ok a /\
  resolve a = Ok (new_srt SRT_TRAS_UNIT [new_srt SRT_DECL_LIST [new_srt SRT_INIT_DECL [new_identifier_srt SRT_IDENT_DECL (meaning t) n]]]).
Proof. intros P V. exists (declaration_tree t n). split; [apply parse_declare; apply (proper_clear t false P)|apply declaration_run; auto]. Qed.
