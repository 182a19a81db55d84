"""Generates rocq/theories/Test*.v from the C unit tests of /repo/tests."""
import os, sys, re
sys.path.insert(0, os.path.dirname(__file__))
from ctests import *
T = '/repo/tests/'
OUT = os.path.join(os.path.dirname(__file__), '../rocq/theories/')

CT = {}
def build_ct():
    kw = 'break case char continue default else enum for if int long return sizeof struct switch typedef unsigned void while'.split()
    for k in kw: CT['CTOKEN_KEYWORD_' + k.upper()] = 'Kw' + k.capitalize()
    names = re.findall(r'CTOKEN_(\w+),', open('/repo/src/ctoken/ctoken.h').read())
    special = {'LBRACKET':'LBracket','RBRACKET':'RBracket','LPAREN':'LParen','RPAREN':'RParen','LBRACE':'LBrace','RBRACE':'RBrace',
               'EOF':'CtEOF','IDENT':'CtIdent','INT':'CtInt','CHAR':'CtChar','STRING':'CtString'}
    for n in names:
        if n.startswith('KEYWORD_'): continue
        CT['CTOKEN_' + n] = special.get(n) or ''.join(w.capitalize() if w not in ('VBAR',) else 'VBar' for w in n.split('_'))
build_ct()
def z(n): return '(%d)' % n if n < 0 else '%d' % n
def bs(t): return '[' + '; '.join(map(str, t)) + ']'
IL = {'INTEGER_INT':'IInt','INTEGER_LONG':'ILong','INTEGER_LONGLONG':'ILongLong','INTEGER_UNSIGNED_INT':'IUInt',
      'INTEGER_UNSIGNED_LONG':'IULong','INTEGER_UNSIGNED_LONGLONG':'IULongLong','INTEGER_CHAR':'IChar', 'INTEGER_UNSIGNED_CHAR':'IUChar'}
def il(n):
    if n.fn == 'new_signed_iliteral': return '(new_signed %s %s)' % (IL[n.args[0]], z(n.args[1]))
    return '(new_unsigned %s %s)' % (IL[n.args[0]], z(n.args[1]))
def sl(n):
    assert n.fn == 'new_sliteral', n
    d = n.args[0]
    if isinstance(d, Node): d = d.f['data']
    d = list(d) + [0]
    return bs(d[:n.args[1]])
def tok(n):
    if n.fn == 'new_ctoken': return 'TTok ' + CT[n.args[0]]
    if n.fn == 'new_identifier_ctoken': return 'TIdent ' + bs(n.args[1])
    if n.fn == 'new_iliteral_ctoken': return ('TInt ' if n.args[0] == 'CTOKEN_INT' else 'TChar ') + il(n.args[1])
    if n.fn == 'new_sliteral_ctoken': return 'TStr ' + sl(n.args[1])
    raise Exception(n)
def ast(n):
    if n.fn == 'new_ast':
        assert len(n.args) == n.args[1] + 2, n
        return '(new_ast %s [%s])' % (n.args[0], '; '.join(ast(c) for c in n.args[2:]))
    if n.fn == 'new_identifier_ast': return '(new_identifier_ast %s %s)' % (n.args[0], bs(n.args[1]))
    if n.fn == 'new_iliteral_ast': return '(new_iliteral_ast %s %s)' % (n.args[0], il(n.args[1]))
    if n.fn == 'new_sliteral_ast': return '(new_sliteral_ast %s %s)' % (n.args[0], sl(n.args[1]))
    raise Exception(n)

def parser_tests():
    o = ['(** The parser unit tests of /repo/tests/parser, read by tools/gen_tests.py and run on the model.',
         '    These are tests of the model, not properties. *)',
         'From Verif Require Import Base LiteralModel LexerModel AstModel ParserModel.', 'Open Scope Z_scope.', '',
         '(** nonterminal, typedef names, tokens and the expected tree ([None]: an error is expected) *)',
         'Definition case : Type := nt * list name * list token * option ast.',
         'Definition run (c : case) : option ast :=',
         '  let \'(n, s, ts, _) := c in',
         '  match parse (parse_fuel ts) n (mkpst ts s false) with Ok (Some a, _) => Some a | _ => None end.',
         'Definition errs (c : case) : bool :=',
         '  let \'(n, s, ts, _) := c in',
         '  match parse (parse_fuel ts) n (mkpst ts s false) with Ok (None, _) => true | _ => false end.', '']
    NTS = {'decl': 'NDecl', 'expr': '(NAssign [])', 'stmt': 'NStmt', 'parser': '(NTransUnit [])', 'function': 'NFuncDef'}
    k, seen = 0, set()
    for f in ['declaration', 'declaration_error', 'expression', 'expression_error', 'statement', 'statement_error', 'external', 'external_error']:
        for name, run, a in run_file(T + 'parser/test_%s.c' % f):
            n = NTS[run.split('_')[1]]
            toks, exp = a[0], a[-1]
            if name in seen: name += '_%d' % k
            seen.add(name)
            tds = a[1] if len(a) == 3 and a[1] != NULL else []
            e = 'None' if 'error' in run else 'Some ' + ast(exp)
            o.append('(** tests/parser/test_%s.c %s *)' % (f, name))
            o.append('Definition %s : case :=\n  (%s, [%s],\n   [%s],\n   %s).' % (name, n, '; '.join(bs(t) for t in tds), '; '.join(map(tok, toks)), e))
            o.append('Example %s_ok : %s. Proof. vm_compute. reflexivity. Qed.' % (name, 'errs %s = true' % name if 'error' in run else 'run %s = snd %s' % (name, name)))
            k += 1
    open(OUT + 'TestParser.v', 'w').write('\n'.join(o) + '\n')
    print('parser', k)

# resolver
def dt(n):
    f, a = n.fn, n.args
    if f == 'field' and a[1] == 'to_dtype' and a[0].fn == 'field' and a[0].args[0].fn == 'new_pointer_dtype': return dt(a[0].args[0].args[0])
    if f == 'new_void_dtype': return 'DTYPE_VOID'
    if f == 'new_integer_dtype': return str(a[0])
    if f == 'new_pointer_dtype': return '(DTYPE_POINTER %s)' % dt(a[0])
    if f == 'new_array_dtype': return '(DTYPE_ARRAY %s %d)' % (dt(a[0]), a[1])
    if f == 'new_typedef_dtype': return '(DTYPE_TYPEDEF %s)' % dt(a[0])
    if f == 'new_function_dtype': return '(DTYPE_FUNCTION [%s] %s)' % ('; '.join(map(dparam, a[0])), dt(a[1]))
    if f == 'new_named_struct_dtype': return '(DTYPE_NSTRUCT %s %d %d)' % (bs(a[0]), a[1], a[2])
    if f == 'new_unnamed_struct_dtype': return '(ust [%s])' % '; '.join(map(member, a[0]))
    raise Exception(n)
def dparam(n):
    if n.fn == 'new_named_dparam': return '(Some %s, %s)' % (bs(n.args[0]), dt(n.args[1]))
    return '(None, %s)' % dt(n.args[0])
def member(n): return '(%s, %s)' % (bs(n.args[0]), dt(n.args[1]))
def sl2(n):
    if n.fn == 'sliteral_zero_padding_copy': return '(zero_padding_copy %s %d)' % (sl2(n.args[0]), n.args[1])
    return sl(n)
def srt(n):
    f, a = n.fn, n.args
    if f == 'new_srt':
        assert len(a) == a[1] + 2, n
        return '(new_srt %s [%s])' % (a[0], '; '.join(map(srt, a[2:])))
    if f == 'new_dtyped_srt':
        assert len(a) == a[2] + 3, n
        return '(new_dtyped_srt %s %s [%s])' % (a[0], dt(a[1]), '; '.join(map(srt, a[3:])))
    if f == 'new_identifier_srt': return '(new_identifier_srt %s %s %s)' % (a[0], dt(a[1]), bs(a[2]))
    if f == 'new_string_srt': return '(new_string_srt %s %s %d)' % (a[0], dt(a[1]), a[2])
    if f == 'new_iliteral_srt': return '(new_iliteral_srt %s %s)' % (dt(a[0]), il(a[1]))
    if f == 'new_sliteral_srt': return '(new_sliteral_srt %s %s)' % (dt(a[0]), sl2(a[1]))
    raise Exception(n)
def syms(n):
    if n == NULL: return 'None'
    o = []
    for fn, a in n.f.get('ops', []):
        x = fn.replace('symboltable_define_', '')
        o.append('(fun t => sym_define_%s t %s %s%s)' % (x, bs(a[0]), dt(a[1]), ' ' + il(a[2]) if x == 'integer' else ''))
    return '(Some [%s])' % '; '.join(o)
def tags(n):
    if n == NULL: return 'None'
    o = []
    for fn, a in n.f.get('ops', []):
        if fn == 'tagtable_define_struct': o.append('(fun t => tag_define_struct t %s [%s])' % (bs(a[0]), '; '.join(map(member, a[1]))))
        else: o.append('(fun t => tag_define_enum t %s [%s])' % (bs(a[0]), '; '.join('(%s, %d)' % (bs(m.args[0]), m.args[1]) for m in a[1])))
    return '(Some [%s])' % '; '.join(o)

def resolver_tests():
    o = ['(** The resolver unit tests of /repo/tests/resolver, read by tools/gen_tests.py and run on the model.',
         '    These are tests of the model, not properties. *)',
         'From Verif Require Import Base LiteralModel ResolverModel.', 'Open Scope Z_scope.', '',
         'Definition ust ms := match new_unnamed_struct ms with Ok d => d | _ => DTYPE_VOID end.',
         'Fixpoint run_ops {A} (l : list (A -> res A)) (t : A) : res A :=',
         '  match l with [] => Ok t | f :: r => do t <- f t; run_ops r t end.',
         '(** symbol and tag table set up by the test, in a scope inside a fresh global scope *)',
         'Definition inner {A} (fresh : list A) (enter : list A -> list A) (dflt : bool) (ops : option (list (list A -> res (list A)))) : res (list A) :=',
         '  match ops with',
         '  | None => Ok (if dflt then enter fresh else fresh)',
         '  | Some ops => do t <- run_ops ops fresh; Ok (t ++ fresh)',
         '  end.',
         'Definition outer {A} (fresh : list A) (ops : option (list (list A -> res (list A)))) : res (list A) :=',
         '  match ops with None => Ok fresh | Some ops => run_ops ops fresh end.',
         'Definition k : knot := resolvers 200.',
         'Definition expr_test a sy tg : rres srt :=',
         '  do sy <- inner new_symtab sym_enter false sy; do tg <- inner new_tagtab tag_enter false tg;',
         '  resolve_expr k a (set_tags tg (set_syms sy new_resolver)).',
         'Definition global_expr_test a sy tg : rres srt :=',
         '  do sy <- outer new_symtab sy; do tg <- outer new_tagtab tg;',
         '  resolve_expr k a (set_tags tg (set_syms sy new_resolver)).',
         'Definition stmt_test a sy ret : rres srt :=',
         '  do sy <- inner new_symtab sym_enter false sy;',
         '  resolve_stmt k a (set_ret ret (set_syms sy new_resolver)).',
         'Definition local_decl_test a sy tg : rres srt :=',
         '  do sy <- inner new_symtab sym_enter true sy; do tg <- inner new_tagtab tag_enter true tg;',
         '  resolve_decl k a (set_scope (Some []) (set_tags tg (set_syms sy new_resolver))).',
         'Definition global_decl_test a sy tg : rres srt :=',
         '  do sy <- outer new_symtab sy; do tg <- outer new_tagtab tg;',
         '  resolve_decl k a (set_scope (Some []) (set_tags tg (set_syms sy new_resolver))).',
         'Definition unit_test a : rres srt := resolve_translation_unit k a new_resolver.',
         'Definition got (r : rres srt) : option srt := match r with Ok (Some s, _) => Some s | _ => None end.',
         'Definition errs (r : rres srt) : bool := match r with Ok (None, _) => true | _ => false end.',
         'Definition tu (r : rres srt) : list srt := match r with Ok (_, s) => r_tu s | _ => [] end.',
         'Definition scope_of (r : rres srt) : option (list srt) := match r with Ok (_, s) => r_scope s | _ => None end.', '']
    kk, seen = 0, set()
    for f in ['conversion', 'declaration', 'declaration_error', 'expression', 'expression_error', 'statement', 'statement_error', 'external', 'external_error']:
        for name, run, a in run_file(T + 'resolver/test_%s.c' % f):
            if name in seen: name += '_%d' % kk
            seen.add(name)
            err = 'error' in run
            A = ast(a[0])
            extra = None
            if run in ('run_resolver_test', 'run_resolver_error_test'): m = 'unit_test %s' % A
            elif 'stmt' in run: m = 'stmt_test %s %s %s' % (A, syms(a[1]), 'None' if a[2] == NULL else '(Some %s)' % dt(a[2]))
            else:
                kind = {'run_conv_resolver_test': 'expr_test', 'run_local_expr_resolver_test': 'expr_test', 'run_expr_resolver_error_test': 'expr_test',
                        'run_global_expr_resolver_test': 'global_expr_test'}.get(run)
                if not kind: kind = 'local_decl_test' if 'local' in run else 'global_decl_test'
                m = '%s %s %s %s' % (kind, A, syms(a[1]), tags(a[2]))
                if len(a) == 5 and a[4] != NULL: extra = ('tu' if 'expr' in run else 'scope_of', srt(a[4]))
            o.append('(** tests/resolver/test_%s.c %s *)' % (f, name))
            o.append('Definition %s := %s.' % (name, m))
            if err: o.append('Example %s_ok : errs %s = true. Proof. vm_compute. reflexivity. Qed.' % (name, name))
            else: o.append('Example %s_ok : got %s = Some %s. Proof. vm_compute. reflexivity. Qed.' % (name, name, srt(a[-1] if len(a) != 5 else a[3])))
            if extra: o.append('Example %s_extra : %s %s = %ssrt_children %s%s. Proof. vm_compute. reflexivity. Qed.' % (name, extra[0], name, '' if extra[0] == 'tu' else 'Some (', extra[1], '' if extra[0] == 'tu' else ')'))
            kk += 1
    open(OUT + 'TestResolver.v', 'w').write('\n'.join(o) + '\n')
    print('resolver', kk)
# immcgen
def opt(n, f): return 'None' if n == NULL else '(Some %s)' % f(n)
def iope(n):
    f, a = n.fn, n.args
    if f in ('new_signed_arg_immcope', 'new_unsigned_arg_immcope', 'new_signed_reg_immcope', 'new_unsigned_reg_immcope'): return '(%s %s %s)' % (f, a[0], z(a[1]))
    if f in ('new_ptr_immcope', 'new_mem_immcope'): return '(%s %s)' % (f, z(a[0]))
    if f == 'new_label_immcope': return '(%s %s)' % (f, bs(a[0]))
    if f == 'new_int_immcope': return '(%s %s %s)' % (f, a[0], il(a[1]))
    if f in ('new_signed_int_immcope', 'new_unsigned_int_immcope'): return '(%s %s %s %s)' % (f, a[0], IL[a[1]], z(a[2]))
    if f == 'new_str_immcope': return '(%s %s)' % (f, sl2(a[0]))
    raise Exception(n)
def immc(n):
    f, a = n.fn, n.args
    if f == 'new_inst_immc': return '%s %s %s' % (f, a[0], ' '.join(opt(x, iope) for x in a[1:]))
    if f == 'new_int_data_immc': return '%s %s %s' % (f, a[0], il(a[1]))
    if f == 'new_str_data_immc': return '%s %s %s' % (f, a[0], sl2(a[1]))
    if f == 'new_label_immc': return '%s %s %s %s' % (f, a[0], a[1], bs(a[2]))
    raise Exception(n)
def immcs(v): return '[' + ';\n   '.join(map(immc, v)) + ']'
def immcgen_tests():
    o = ['(** The code generator unit tests of /repo/tests/immcgen, read by tools/gen_tests.py and run on the model.',
         '    These are tests of the model, not properties. *)',
         'From Verif Require Import Base LiteralModel ImmcgenModel.', 'Open Scope Z_scope.', '',
         'Definition ust ms := match new_unnamed_struct ms with Ok d => d | _ => DTYPE_VOID end.',
         'Fixpoint run_ops {A} (l : list (A -> res A)) (t : A) : res A :=',
         '  match l with [] => Ok t | f :: r => do t <- f t; run_ops r t end.',
         '(** symbol and tag table set up by the test, in a scope inside a fresh global scope *)',
         'Definition inner {A} (fresh : list A) (enter : list A -> list A) (dflt : bool) (ops : option (list (list A -> res (list A)))) : res (list A) :=',
         '  match ops with',
         '  | None => Ok (if dflt then enter fresh else fresh)',
         '  | Some ops => do t <- run_ops ops fresh; Ok (t ++ fresh)',
         '  end.',
         'Definition outer {A} (fresh : list A) (ops : option (list (list A -> res (list A)))) : res (list A) :=',
         '  match ops with None => Ok fresh | Some ops => run_ops ops fresh end.',
         'Definition codes (s : srt) (st : gst) : res (list immc) := do (cs, _) <- gen (S (srt_height s)) None s st; Ok cs.',
         'Definition local_test (dflt : bool) s sy tg :=',
         '  do sy <- inner new_symtab sym_enter dflt sy; do tg <- inner new_tagtab tag_enter dflt tg;',
         '  codes s (gset_tags tg (gset_syms sy new_immcgen)).',
         'Definition global_test s sy tg :=',
         '  do sy <- outer new_symtab sy; do tg <- outer new_tagtab tg;',
         '  codes s (gset_tags tg (gset_syms sy new_immcgen)).',
         'Definition stmt_test s sy ret :=',
         '  do sy <- inner new_symtab sym_enter false sy; codes s (gset_ret ret (gset_syms sy new_immcgen)).', '']
    kk, seen = 0, set()
    for f in ['declaration', 'expression', 'statement', 'external']:
        for name, run, a in run_file(T + 'immcgen/test_%s.c' % f):
            if name in seen: name += '_%d' % kk
            seen.add(name)
            S = srt(a[0])
            if run == 'run_immcgen_test': m = 'immcgen %s' % S
            elif 'stmt' in run: m = 'stmt_test %s %s %s' % (S, syms(a[1]), z(a[2]))
            elif 'global' in run: m = 'global_test %s %s %s' % (S, syms(a[1]), tags(a[2]))
            else: m = 'local_test %s %s %s %s' % ('true' if 'decl' in run else 'false', S, syms(a[1]), tags(a[2]))
            o.append('(** tests/immcgen/test_%s.c %s *)' % (f, name))
            o.append('Definition %s := %s.' % (name, m))
            o.append('Example %s_ok : %s = Ok\n  %s.\nProof. vm_compute. reflexivity. Qed.' % (name, name, immcs(a[-1])))
            kk += 1
    open(OUT + 'TestImmcgen.v', 'w').write('\n'.join(o) + '\n')
    print('immcgen', kk)
# regalloc
def lseq(n): return 'mkls [%s] 0 (-1)' % '; '.join('mklv %d %d' % (l.args[0], l.f.get('last_use_index', l.args[0])) for l in n.f['livenesses'])
def lseqs(v): return '[' + '; '.join(map(lseq, v)) + ']'
def regalloc_tests():
    o = ['(** The register allocator unit tests of /repo/tests/regalloc, read by tools/gen_tests.py and run on the model.',
         '    These are tests of the model, not properties. *)',
         'From Verif Require Import Base LiteralModel RegallocModel.', 'Open Scope Z_scope.', '']
    kk = 0
    for name, run, a in run_file(T + 'regalloc/test_regalloc.c'):
        o.append('(** tests/regalloc/test_regalloc.c %s *)' % name)
        o.append('Definition %s := allocate_regs %d %s.' % (name, a[1], immcs(a[0])))
        o.append('Example %s_ok : %s = Ok\n  (%s, %s).\nProof. vm_compute. reflexivity. Qed.' % (name, name, immcs(a[2]), lseqs(a[3])))
        kk += 1
    open(OUT + 'TestRegalloc.v', 'w').write('\n'.join(o) + '\n')
    print('regalloc', kk)
# x64gen
def xreg(n):
    if isinstance(n, str): return n
    t = {'CALLER_SAVED_REG_IDS': ['CX','DX','SI','DI','R8','R9','R10','R11'], 'CALLEE_SAVED_REG_IDS': ['BX','BP','R12','R13','R14'],
         'ARG_REG_IDS': ['DI','SI','DX','CX','R8','R9']}[n.args[0]]
    return t[n.args[1]] + '_REG_ID'
def xope(n):
    f, a = n.fn, n.args
    if f == 'new_suffix_x64ope': return '(%s %s)' % (f, a[0])
    if f == 'new_reg_x64ope': return '(%s %s %s)' % (f, a[0], xreg(a[1]))
    if f in ('new_ptr_x64ope', 'new_jptr_x64ope'): return '(%s %s)' % (f, xreg(a[0]))
    if f == 'new_mem_x64ope': return '(%s %s)' % (f, z(a[0]))
    if f in ('new_label_x64ope', 'new_jlabel_x64ope'): return '(%s %s)' % (f, bs(a[0]))
    if f in ('new_signed_int_x64ope', 'new_unsigned_int_x64ope'): return '(%s %s %s %s)' % (f, a[0], IL[a[1]], z(a[2]))
    if f == 'new_int_x64ope': return '(%s %s %s)' % (f, a[0], il(a[1]))
    raise Exception(n)
def x64(n):
    f, a = n.fn, n.args
    if f == 'new_inst_x64': return '%s %s %s' % (f, a[0], ' '.join(opt(x, xope) for x in a[1:]))
    if f == 'new_int_data_x64': return '%s %s %s' % (f, a[0], il(a[1]))
    if f == 'new_str_data_x64': return '%s %s %s' % (f, a[0], sl2(a[1]))
    if f == 'new_label_x64': return '%s %s %s %s' % (f, a[0], a[1], bs(a[2]))
    raise Exception(n)
def x64s(v): return '[' + ';\n   '.join(map(x64, v)) + ']'
def x64gen_tests():
    o = ['(** The assembly generator unit tests of /repo/tests/x64gen, read by tools/gen_tests.py and run on the model.',
         '    These are tests of the model, not properties. *)',
         'From Verif Require Import Base LiteralModel X64genModel.', 'Open Scope Z_scope.', '',
         '(** run_..._x64gen_test: gen_inst_x64code for each instruction *)',
         'Fixpoint insts (l : list immc) (st : xst) : res (list x64) :=',
         '  match l with',
         '  | [] => Ok []',
         '  | c :: r => do (cs, st) <- gen_inst_x64code c st; do ds <- insts r st; Ok (cs ++ ds)',
         '  end.',
         'Definition inst_test l lives := insts l (mkxst lives 0).',
         'Definition one_test (gen : immc -> xst -> xres) (l : list immc) : res (list x64) :=',
         '  match l with c :: _ => do (cs, _) <- gen c (mkxst (repeat new_liveseq 8) 0); Ok cs | [] => UB end.', '']
    kk, seen = 0, set()
    for f in ['arithinst', 'bitinst', 'ctrlinst', 'datainst', 'logicinst', 'shrotinst', 'data', 'label', 'x64gen']:
        for name, run, a in run_file(T + 'x64gen/test_%s.c' % f):
            if name in seen: name += '_%d' % kk
            seen.add(name)
            if f in ('data', 'label'): m = 'one_test gen_%s_x64code %s' % (f, immcs(a[0]))
            else: m = '%s %s %s' % ('x64gen' if f == 'x64gen' else 'inst_test', immcs(a[0]), lseqs(a[1]))
            o.append('(** tests/x64gen/test_%s.c %s *)' % (f, name))
            o.append('Definition %s := %s.' % (name, m))
            o.append('Example %s_ok : %s = Ok\n  %s.\nProof. vm_compute. reflexivity. Qed.' % (name, name, x64s(a[-1])))
            kk += 1
    open(OUT + 'TestX64gen.v', 'w').write('\n'.join(o) + '\n')
    print('x64gen', kk)
if __name__ == '__main__':
    parser_tests()
    resolver_tests()
    immcgen_tests()
    regalloc_tests()
    x64gen_tests()
