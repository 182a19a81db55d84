(** Model of src/srt: the typed tree produced by the resolver. *)
From Verif Require Export SymtabModel.
Open Scope Z_scope.

(** srt/srt.h:10-97 SrtType *)
Inductive srttype :=
| SRT_TRAS_UNIT | SRT_FUNC_DEF | SRT_DECL_LIST | SRT_TAG_DECL | SRT_INIT_DECL | SRT_IDENT_DECL
| SRT_STR_DECL | SRT_INIT | SRT_CMPD_STMT | SRT_CASE_STMT | SRT_DEFAULT_STMT | SRT_CONTINUE_STMT
| SRT_BREAK_STMT | SRT_RET_STMT | SRT_EXPR_STMT | SRT_NULL_STMT | SRT_IF_STMT | SRT_SWITCH_STMT
| SRT_WHILE_STMT | SRT_FOR_STMT | SRT_ASSIGN_EXPR | SRT_COND_EXPR | SRT_LOR_EXPR | SRT_LAND_EXPR
| SRT_OR_EXPR | SRT_XOR_EXPR | SRT_AND_EXPR | SRT_EQUAL_EXPR | SRT_NEQUAL_EXPR | SRT_LESS_EXPR
| SRT_GREATER_EXPR | SRT_LESSEQ_EXPR | SRT_GREATEREQ_EXPR | SRT_LSHIFT_EXPR | SRT_RSHIFT_EXPR
| SRT_ADD_EXPR | SRT_SUB_EXPR | SRT_PADD_EXPR | SRT_PSUB_EXPR | SRT_PDIFF_EXPR | SRT_MUL_EXPR
| SRT_DIV_EXPR | SRT_MOD_EXPR | SRT_CAST_EXPR | SRT_PREINC_EXPR | SRT_PREDEC_EXPR | SRT_ADDR_EXPR
| SRT_INDIR_EXPR | SRT_POS_EXPR | SRT_NEG_EXPR | SRT_NOT_EXPR | SRT_LNOT_EXPR | SRT_CALL_EXPR
| SRT_TOMEMBER_EXPR | SRT_POSTINC_EXPR | SRT_POSTDEC_EXPR | SRT_ARG_LIST | SRT_IDENT_EXPR
| SRT_STR_EXPR | SRT_ILITERAL_EXPR | SRT_SLITERAL_EXPR
.
Scheme Equality for srttype.

(** srt/srt.h:99-107 Srt. At most one of ident_name, sliteral_id, iliteral and sliteral is set by
    the constructors (srt.c:14-79). *)
Inductive spayload :=
| SPNone
| SPName (n : name)
| SPStrId (id : Z)
| SPInt (i : iliteral)
| SPStr (s : sliteral).
Inductive srt := Srt (t : srttype) (d : option dtype) (p : spayload) (children : list srt).

Definition srt_type (s : srt) : srttype := let 'Srt t _ _ _ := s in t.
Definition srt_dtype (s : srt) : option dtype := let 'Srt _ d _ _ := s in d.
Definition srt_payload (s : srt) : spayload := let 'Srt _ _ p _ := s in p.
Definition srt_children (s : srt) : list srt := let 'Srt _ _ _ c := s in c.
Definition srt_is (s : srt) (t : srttype) : bool := srttype_beq (srt_type s) t.

(** srt.c:14-67 *)
Definition new_srt (t : srttype) (c : list srt) : srt := Srt t None SPNone c.
Definition new_dtyped_srt (t : srttype) (d : dtype) (c : list srt) : srt := Srt t (Some d) SPNone c.
Definition new_identifier_srt (t : srttype) (d : dtype) (n : name) : srt := Srt t (Some d) (SPName n) [].
Definition new_string_srt (t : srttype) (d : dtype) (id : Z) : srt := Srt t (Some d) (SPStrId id) [].
Definition new_iliteral_srt (d : dtype) (i : iliteral) : srt := Srt SRT_ILITERAL_EXPR (Some d) (SPInt i) [].
Definition new_sliteral_srt (d : dtype) (s : sliteral) : srt := Srt SRT_SLITERAL_EXPR (Some d) (SPStr s) [].

(** `srt->dtype->...`: a NULL dtype is dereferenced *)
Definition dty (s : srt) : res dtype := deref (srt_dtype s).
(** `srt->iliteral->...` *)
Definition srt_iliteral (s : srt) : res iliteral := match srt_payload s with SPInt i => Ok i | _ => UB end.

(** srt.c:105-110 srt_ismodifiable *)
Definition srt_ismodifiable (s : srt) : bool :=
  match srt_dtype s with
  | None => false
  | Some d =>
      if negb (dtype_isobject d) || is_array d then false
      else srt_is s SRT_IDENT_EXPR || srt_is s SRT_INDIR_EXPR || srt_is s SRT_TOMEMBER_EXPR
  end.
