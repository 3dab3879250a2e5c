#!/usr/bin/env python3
"""Translate the field tables of /repo/pynitf into Coq (theories/Descs*.v).

Reads the python sources as text (ast.parse); nothing is imported or run.
Usage: gen_desc.py <repo> <output directory>
"""
import ast
import os
import re
import sys

repo, out = sys.argv[1], sys.argv[2]

KIND = {
    "StringFieldData": "TData KString",
    "BytesFieldData": "TData KBytes",
    "FloatFieldData": "TData KFloat",
}

class Unsupported(Exception):
    pass

def q(s):
    return '"' + s.replace('"', '""') + '"'

def coq_str(s):
    """Code points of a python str as a Coq term of type list N."""
    if all(32 <= ord(c) < 127 for c in s):
        return '(str %s)' % q(s)
    return '[' + '; '.join('%d%%N' % ord(c) for c in s) + ']'

def z(n):
    return '(%d)%%Z' % n if n < 0 else '%d%%Z' % n

# ---------------------------------------------------------------- expressions
BIN = {ast.Add: 'EAdd', ast.Sub: 'ESub', ast.Mult: 'EMul', ast.FloorDiv: 'EFloorDiv',
       ast.BitAnd: 'EBitAnd'}
CMP = {ast.Eq: 'CEq', ast.NotEq: 'CNe', ast.Lt: 'CLt', ast.LtE: 'CLe', ast.Gt: 'CGt',
       ast.GtE: 'CGe'}

def is_f(n):
    return isinstance(n, ast.Name) and n.id == 'f'

def ex(n):
    if isinstance(n, ast.Expression):
        return ex(n.body)
    if isinstance(n, ast.Constant):
        if isinstance(n.value, bool):
            raise Unsupported('bool')
        if isinstance(n.value, int):
            return '(EInt %s)' % z(n.value)
        if isinstance(n.value, str):
            return '(EStr %s)' % coq_str(n.value)
    if isinstance(n, ast.Attribute) and is_f(n.value):
        return '(EFld %s 0)' % q(n.attr)
    if isinstance(n, ast.Subscript) and isinstance(n.value, ast.Attribute) and is_f(n.value.value):
        idx = n.slice
        names = [e for e in idx.elts] if isinstance(idx, ast.Tuple) else [idx]
        if [getattr(e, 'id', None) for e in names] != ['i%d' % (i + 1) for i in range(len(names))]:
            raise Unsupported('index ' + ast.unparse(n))
        return '(EFld %s %d)' % (q(n.value.attr), len(names))
    if isinstance(n, ast.BinOp) and type(n.op) in BIN:
        return '(%s %s %s)' % (BIN[type(n.op)], ex(n.left), ex(n.right))
    if isinstance(n, ast.Compare) and len(n.ops) == 1:
        op = n.ops[0]
        if isinstance(op, (ast.In, ast.NotIn)):
            l = n.comparators[0]
            if not isinstance(l, (ast.List, ast.Tuple)):
                raise Unsupported(ast.unparse(n))
            return '(EIn %s %s [%s])' % ('true' if isinstance(op, ast.NotIn) else 'false',
                                         ex(n.left), '; '.join(ex(e) for e in l.elts))
        return '(ECmp %s %s %s)' % (CMP[type(op)], ex(n.left), ex(n.comparators[0]))
    if isinstance(n, ast.BoolOp) and isinstance(n.op, ast.And):
        r = ex(n.values[-1])
        for v in reversed(n.values[:-1]):
            r = '(EAnd %s %s)' % (ex(v), r)
        return r
    if isinstance(n, ast.IfExp):
        return '(EIf %s %s %s)' % (ex(n.test), ex(n.body), ex(n.orelse))
    if isinstance(n, ast.Call) and isinstance(n.func, ast.Name) and n.func.id == 'int':
        a = n.args[0]
        if (isinstance(a, ast.BinOp) and isinstance(a.op, ast.Mult)
                and isinstance(a.left, ast.BinOp) and isinstance(a.left.op, ast.Div)
                and isinstance(a.left.right, ast.Constant) and a.left.right.value == 2):
            return '(EHalfMul %s %s)' % (ex(a.left.left), ex(a.right))
        return '(EIntOf %s)' % ex(a)
    if (isinstance(n, ast.Call) and isinstance(n.func, ast.Attribute)
            and n.func.attr == 'rstrip' and not n.args):
        return '(ERstrip %s)' % ex(n.func.value)
    raise Unsupported(ast.dump(n))

def expr(s):
    return ex(ast.parse(s.strip(), mode='eval'))

def value_expr(lam):
    """{"value": lambda fs, key: fs.a[key] * fs.b[key]} inside one loop."""
    def tr(n):
        if isinstance(n, ast.BinOp):
            return '(%s %s %s)' % (BIN[type(n.op)], tr(n.left), tr(n.right))
        if (isinstance(n, ast.Subscript) and isinstance(n.value, ast.Attribute)
                and n.value.value.id == lam.args.args[0].arg
                and n.slice.id == lam.args.args[1].arg):
            return '(EFld %s 1)' % q(n.value.attr)
        raise Unsupported(ast.dump(n))
    return tr(lam.body)

# ---------------------------------------------------------------- formats
def pct(s, ty, where):
    m = re.fullmatch(r'%([-+0 ]*)(\d*)(?:\.(\d+))?l?([dfeE])', s)
    if not m:
        raise Unsupported('format %r' % s)
    flags, w, p, c = m.groups()
    plus, zero, left = '+' in flags, '0' in flags, '-' in flags
    b = lambda x: 'true' if x else 'false'
    if c == 'd':
        assert ty == 'int', where
        return 'FrD (Build_dfmt %s %s %s %s)' % (b(plus), b(zero), b(left), w or 0)
    assert ty == 'float', where
    return 'FrF (FsPct %s %s %s %s %s %s %s)' % (b(plus), b(zero), b(left), w or 0,
                                                 p if p is not None else 6,
                                                 b(c in 'eE'), b(c == 'E'))

# ---------------------------------------------------------------- modules
class Mod:
    def __init__(self, fn):
        self.fn = fn
        self.rel = 'pynitf/' + os.path.basename(fn)
        self.env = {'allow_extensions': True}   # pynitf/nitf_tre.py:22
        self.tables = []

    def const(self, n):
        """Value of a module level expression, or the ast node itself."""
        if isinstance(n, ast.Constant):
            return n.value
        if isinstance(n, ast.Name):
            if n.id in self.env:
                return self.env[n.id]
            return n
        if isinstance(n, ast.Tuple):
            return tuple(self.const(e) for e in n.elts)
        if isinstance(n, ast.JoinedStr):
            r = ''
            for p in n.values:
                r += p.value if isinstance(p, ast.Constant) else str(self.const(p.value))
            return r
        return n

    def run(self, body):
        for st in body:
            if isinstance(st, ast.Assign):
                for t in st.targets:
                    if isinstance(t, ast.Name):
                        self.env[t.id] = self.const(st.value)
            elif isinstance(st, ast.If):
                # csexrb: "if allow_extensions" with a constant set above
                c = self.const(st.test)
                if isinstance(c, (bool, int)):
                    self.run(st.body if c else st.orelse)
            elif isinstance(st, ast.FunctionDef):
                self.env[st.name] = st
            elif isinstance(st, ast.ClassDef):
                for s in st.body:
                    if isinstance(s, ast.Assign) and s.targets[0].id == 'desc':
                        v = self.const(s.value)
                        if isinstance(v, ast.List):
                            self.tables.append((st.name, st.lineno, v))

    def row(self, n, ind):
        assert isinstance(n, ast.List), ast.dump(n)
        pad = '  ' * ind
        first = n.elts[0]
        if isinstance(first, ast.List):
            assert first.elts[0].value == 'loop'
            sh = self.const(first.elts[1])
            rows = [self.row(e, ind + 1) for e in n.elts[1:]]
            return '%s(* %s:%d *)\n%sRLoop %s [\n%s]' % (
                pad, self.rel, n.lineno, pad, expr(sh), ';\n'.join(rows))
        name = self.const(n.elts[0])
        size = self.const(n.elts[2])
        ty = n.elts[3]
        opts = {}
        if len(n.elts) > 4:
            for k, v in zip(n.elts[4].keys, n.elts[4].values):
                opts[k.value] = v
        where = '%s:%d' % (self.rel, n.lineno)
        tyname = ty.id if isinstance(ty, ast.Name) else ty.value
        cls = opts.pop('field_value_class', None)
        signed = opts.pop('signed', None)
        signed = bool(self.const(signed)) if signed is not None else False
        if cls is not None:
            c = cls.id
            if c in KIND:
                cty = KIND[c]
            elif c == 'IntFieldData':
                cty = 'TData (KInt %s)' % ('true' if signed else 'false')
            else:
                cty = 'TData KExt'
        else:
            cty = {'str': 'TStr', 'int': 'TInt', 'float': 'TFloat', 'bytes': 'TBytes',
                   None: 'TStr'}[tyname]
            if tyname is None:
                assert name is None, where
        fr = 'FrNone'
        if 'frmt' in opts:
            f = self.const(opts.pop('frmt'))
            if isinstance(f, str):
                fr = pct(f, tyname, where)
            elif isinstance(f, ast.FunctionDef):
                fr = 'FrF (FsExt %s)' % q(f.name)
            else:
                raise Unsupported('%s: frmt %s' % (where, f))
        df = 'DfNone'
        if 'default' in opts:
            d = self.const(opts.pop('default'))
            if isinstance(d, bool):
                raise Unsupported(where)
            if isinstance(d, int):
                df = 'DfInt %s' % z(d)
            elif isinstance(d, str):
                df = 'DfStr %s' % coq_str(d)
            elif isinstance(d, bytes):
                df = 'DfBytes [%s]' % '; '.join('%d%%N' % c for c in d)
            elif d is not None:
                raise Unsupported('%s: default %s' % (where, d))
        cond = 'None'
        if 'condition' in opts:
            c = self.const(opts.pop('condition'))
            if c is not None:
                cond = '(Some %s)' % expr(c)
        optional = bool(self.const(opts.pop('optional'))) if 'optional' in opts else False
        oc = self.const(opts.pop('optional_char')) if 'optional_char' in opts else ' '
        hard = bool(self.const(opts.pop('hardcoded_value'))) if 'hardcoded_value' in opts else False
        val = 'None'
        if 'value' in opts:
            val = '(Some %s)' % value_expr(opts.pop('value'))
        so = self.const(opts.pop('size_offset')) if 'size_offset' in opts else 0
        snu = bool(self.const(opts.pop('size_not_updated'))) if 'size_not_updated' in opts else False
        if opts:
            raise Unsupported('%s: options %s' % (where, list(opts)))
        sz = 'SzInt %s' % z(size) if isinstance(size, int) else 'SzExpr %s' % expr(size)
        b = lambda x: 'true' if x else 'false'
        nm = 'None' if name is None else '(Some %s)' % q(name)
        par = lambda s: '(%s)' % s if ' ' in s and not s.startswith('(') else s
        return '%s(* %s *) RField (Build_fdesc %s %s %s %s %s %s %s %d%%N %s %s %s %s)' % (
            pad, where, nm, par(sz), par(cty), par(fr), par(df), cond, b(optional), ord(oc),
            b(hard), val, z(so), b(snu))

HEAD = '''(** Field tables of pynitf, generated from the python sources by tools/gen_desc.py
    (%s).  Each row cites the line it was translated from. *)
From Verif Require Import Base Engine.
Open Scope string_scope.

'''

groups = {'DescsHdr': [], 'DescsDes': [], 'DescsTre': [], 'DescsTre2': []}
names = {k: [] for k in groups}
for fn in sorted(os.listdir(os.path.join(repo, 'pynitf'))):
    if not fn.endswith('.py'):
        continue
    m = Mod(os.path.join(repo, 'pynitf', fn))
    m.run(ast.parse(open(m.fn).read()).body)
    for cls, line, lst in m.tables:
        if 'subheader' in fn or fn == 'nitf_file_header.py':
            g = 'DescsHdr'
        elif fn.startswith('nitf_des'):
            g = 'DescsDes'
        elif fn < 'nitf_tre_m':
            g = 'DescsTre'
        else:
            g = 'DescsTre2'
        rows = [m.row(e, 1) for e in lst.elts]
        groups[g].append('(** %s, class %s (line %d), table at line %d. *)\n'
                         'Definition desc_%s : list row := [\n%s\n].\n'
                         % (m.rel, cls, line, lst.lineno, cls, ';\n'.join(rows)))
        names[g].append(cls)
for g in groups:
    with open(os.path.join(out, g + '.v'), 'w') as fh:
        fh.write(HEAD % {'DescsHdr': 'file header, segment subheaders',
                         'DescsDes': 'data extension segments',
                         'DescsTre': 'TREs, first part', 'DescsTre2': 'TREs, second part'}[g])
        fh.write('\n'.join(groups[g]))
        fh.write('\n(** All tables of this file, by class name. *)\n'
                 'Definition all_%s : list (string * list row) := [\n  %s\n].\n'
                 % (g, ';\n  '.join('(%s, desc_%s)' % (q(n), n) for n in names[g])))
print({g: len(names[g]) for g in names})
