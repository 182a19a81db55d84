"""Reads the C unit tests of /repo/tests as data.

A small evaluator for the straight-line C code of the test functions: constructor calls become
Node objects, vectors become lists. Used to generate Coq checks that the model returns what the
project's own unit tests expect."""
import re, copy

class Node:
    def __init__(self, fn, args): self.fn, self.args, self.f = fn, args, {}
    def __repr__(self): return '%s(%s)%s' % (self.fn, ', '.join(map(repr, self.args)), self.f or '')
class Vec(list): pass
class Sym(str): pass
NULL = Sym('NULL')

TOK = re.compile(r'\s+|//[^\n]*|/\*.*?\*/|("(?:[^"\\]|\\.)*")|(\'(?:[^\'\\]|\\.)\')|(0x[0-9a-fA-F]+|\d+)[uUlL]*|([A-Za-z_]\w*)|(->|\+\+|--|<=|>=|==|!=|&&|\|\||[-+*/%&|^~!<>=?:;,.(){}\[\]])', re.S)
def tokenize(s):
    i, out = 0, []
    while i < len(s):
        m = TOK.match(s, i)
        assert m, s[i:i+40]
        i = m.end()
        if m.group(1): out.append(('str', cstr(m.group(1)[1:-1])))
        elif m.group(2): out.append(('num', cstr(m.group(2)[1:-1])[0]))
        elif m.group(3): out.append(('num', int(m.group(3), 0)))
        elif m.group(4): out.append(('id', m.group(4)))
        elif m.group(5): out.append(('op', m.group(5)))
    return out
ESC = {'n': 10, 't': 9, '0': 0, '\\': 92, '"': 34, "'": 39, 'r': 13, 'a': 7, 'b': 8, 'f': 12, 'v': 11, '?': 63}
def cstr(s):
    b, i = [], 0
    while i < len(s):
        if s[i] == '\\':
            i += 1
            if s[i] in '01234567':
                j = i
                while j < len(s) and j < i + 3 and s[j] in '01234567': j += 1
                b.append(int(s[i:j], 8)); i = j; continue
            if s[i] == 'x':
                j = i + 1
                while j < len(s) and s[j] in '0123456789abcdefABCDEF': j += 1
                b.append(int(s[i+1:j], 16)); i = j; continue
            b.append(ESC[s[i]])
        else: b += list(s[i].encode())
        i += 1
    return tuple(b)

def functions(text):
    text = re.sub(r'^\s*#.*$', '', text, flags=re.M)
    for m in re.finditer(r'^void (test_\w+)\(void\) \{\n(.*?)^\}', text, re.S | re.M):
        yield m.group(1), m.group(2)

class Ev:
    def __init__(self, body):
        self.t, self.i, self.env, self.runs = tokenize(body), 0, {}, []
    def pk(self, k=0): return self.t[self.i+k] if self.i+k < len(self.t) else ('eof', None)
    def eat(self, v):
        assert self.pk()[1] == v, (v, self.t[self.i-5:self.i+10]); self.i += 1
    def run(self):
        while self.pk()[0] != 'eof': self.stmt()
        return self
    def stmt(self):
        t = self.pk()
        if t == ('op', ';'): self.i += 1; return
        if t == ('op', '{'):
            self.i += 1
            while self.pk() != ('op', '}'): self.stmt()
            self.i += 1; return
        # declaration: id * id =   or id id =   or const char id[] =
        while self.pk() == ('id', 'const'): self.i += 1
        if self.pk()[0] == 'id' and (self.pk(1)[0] == 'id' or (self.pk(1) == ('op', '*') and self.pk(2)[0] == 'id')):
            self.i += 1
            while self.pk() == ('op', '*'): self.i += 1
            n = self.pk()[1]; self.i += 1
            arr = False
            if self.pk() == ('op', '['):
                arr = True
                self.i += 1
                while self.pk() != ('op', ']'): self.i += 1
                self.i += 1
            if self.pk() == ('op', '='):
                self.i += 1; v = self.expr()
                if arr and isinstance(v, tuple): v = v + (0,)
                self.env[n] = v
            else: self.env[n] = NULL
            while self.pk() == ('op', ','):
                n = self.pk(1)[1]; self.i += 2; self.eat('='); self.env[n] = self.expr()
            self.eat(';'); return
        if self.pk()[0] == 'id' and self.pk(1) == ('op', '=') :
            n = self.pk()[1]; self.i += 2
            self.env[n] = self.expr(); self.eat(';'); return
        if self.pk()[0] == 'id' and self.pk(1) == ('op', '->') and self.pk(3) == ('op', '='):
            o, f = self.pk()[1], self.pk(2)[1]; self.i += 4
            self.env[o].f[f] = self.expr(); self.eat(';'); return
        self.expr(); self.eat(';')
    def expr(self): return self.add()
    def add(self):
        a = self.mul()
        while self.pk() in (('op', '+'), ('op', '-')):
            o = self.pk()[1]; self.i += 1; b = self.mul()
            a = a + b if o == '+' else a - b
        return a
    def mul(self):
        a = self.un()
        while self.pk() in (('op', '*'), ('op', '/')):
            o = self.pk()[1]; self.i += 1; b = self.un()
            a = a * b if o == '*' else a // b
        return a
    def un(self):
        t = self.pk()
        if t == ('op', '-'): self.i += 1; return -self.un()
        if t == ('op', '&'): self.i += 1; return self.un()
        if t == ('op', '('):
            self.i += 1; v = self.expr(); self.eat(')'); return v
        return self.post()
    def post(self):
        k, v = self.pk(); self.i += 1
        if k in ('num',): return v
        if k == 'str':
            while self.pk()[0] == 'str': v = v + self.pk()[1]; self.i += 1
            return v
        assert k == 'id', (k, v, self.t[self.i-8:self.i+5])
        if v == 'sizeof':
            self.eat('(')
            n = self.pk()[1]; self.i += 1
            while self.pk() != ('op', ')'): self.i += 1
            self.i += 1
            return 1 if n == 'char' else len(self.env[n])
        if self.pk() == ('op', '('):
            self.i += 1; args = []
            while self.pk() != ('op', ')'):
                args.append(self.expr())
                if self.pk() == ('op', ','): self.i += 1
            self.i += 1
            r = self.call(v, args)
        else: r = self.env.get(v, Sym(v)) if v != 'NULL' else NULL
        while self.pk() in (('op', '['), ('op', '->')):
            if self.pk()[1] == '[':
                self.i += 1; ix = self.expr(); self.eat(']')
                r = Node('index', [r, ix])
            else:
                self.i += 1; f = self.pk()[1]; self.i += 1
                r = r.f.get(f, Node('field', [r, Sym(f)]))
        return r
    def call(self, fn, a):
        if fn == 'new_vector': return Vec()
        if fn == 'vector_push': a[0].append(a[1]); return a[0]
        if fn == 'vector_at': return a[0][a[1]]
        if fn == 'vector_fill':
            for _ in range(a[1]): a[0].append(copy.deepcopy(a[2]))
            return a[0]
        if fn == 'vector_size': return len(a[0])
        if fn == 'vector_extend': a[0].extend(a[1]); return a[0]
        if fn == 'new_string': return a[0]
        if fn.endswith('_copy') and len(a) == 1: return copy.deepcopy(a[0])
        if fn.startswith('delete_'): return NULL
        if fn == 'malloc': return Node('malloc', a)
        if fn == 'new_set': return Vec()
        if fn == 'set_add': a[0].append(a[1]); return a[0]
        if fn.startswith('run_'): self.runs.append((fn, copy.deepcopy(a))); return NULL
        if fn == 'memcpy': 
            a[0].f['data'] = a[1][:a[2]]; return NULL
        if fn == 'new_liveseq':
            n = Node(fn, a); n.f['livenesses'] = Vec(); return n
        if fn == 'new_liveness':
            n = Node(fn, a); n.f['last_use_index'] = a[0]; return n
        n = Node(fn, a)
        if fn.startswith('symboltable_') or fn.startswith('tagtable_'):
            n = a[0]; n.f.setdefault('ops', Vec()).append((fn, a[1:]))
        return n

def run_file(path):
    out = []
    for name, body in functions(open(path).read()):
        e = Ev(body).run()
        for r in e.runs: out.append((name,) + r)
    return out
if __name__ == '__main__':
    import sys, glob
    for p in sys.argv[1:]:
        r = run_file(p)
        print(p, len(r))
