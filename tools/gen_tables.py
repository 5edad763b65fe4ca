#!/usr/bin/env python3
"""Transcribe the enum, bit mask and struct class definitions of /repo/pyof
into Coq tables (theories/Ids.v, theories/Classes.v).

The source is only parsed (module ast), never imported or run.  The output is
committed; this script documents how it was obtained.
"""
import ast, sys, os, glob
REPO = '/repo'
OUT = sys.argv[1] if len(sys.argv) > 1 else '/verif/rocq/theories'

mods = {}
for f in sorted(glob.glob(REPO + '/pyof/**/*.py', recursive=True)):
    name = os.path.relpath(f, REPO)[:-3].replace('/', '.')
    if name.endswith('.__init__'):
        name = name[:-9]
    mods[name] = (os.path.relpath(f, REPO), ast.parse(open(f).read()))

BASIC = {'UBInt8': 1, 'UBInt16': 2, 'UBInt32': 4, 'UBInt64': 8}


class Cls:
    def __init__(self, mod, node):
        self.mod, self.node, self.name = mod, node, node.name
        self.file = mods[mod][0]
        self.lines = '%s:%d-%d' % (self.file, node.lineno, node.end_lineno)
        self.bases = []
        self.kind = None      # 'enum','plainenum','mask','struct','list'
        self.attrs = None
        ver = 'v0x01' if '.v0x01.' in mod else 'v0x04' if '.v0x04.' in mod else ''
        self.ver = ver
        self.cid = {'v0x01': self.name + '01', 'v0x04': self.name + '04', '': self.name}[ver]


cache = {}


def lookup(mod, name):
    if (mod, name) in cache:
        return cache[mod, name]
    file, tree = mods[mod]
    r = None
    for n in tree.body:
        if isinstance(n, ast.ClassDef) and n.name == name:
            r = Cls(mod, n)
        elif isinstance(n, ast.Assign) and any(isinstance(t, ast.Name) and t.id == name for t in n.targets):
            r = ev(mod, n.value, {})
        elif isinstance(n, ast.ImportFrom):
            for a in n.names:
                if (a.asname or a.name) == name:
                    if n.module in mods:
                        r = lookup(n.module, a.name)
                    else:
                        r = ('ext', n.module + '.' + a.name)
    if r is None:
        raise KeyError((mod, name))
    cache[mod, name] = r
    if isinstance(r, Cls) and r.kind is None:
        setup(r)
    return r


def setup(c):
    c.kind = '?'
    if c.mod == 'pyof.foundation.basic_types' or c.mod == 'pyof.foundation.base':
        c.kind = 'builtin'
        return
    for b in c.node.bases:
        c.bases.append(lookup(c.mod, b.id))
    b = c.bases[0]
    if b == ('ext', 'enum.IntEnum'):
        c.kind = 'enum'
    elif b == ('ext', 'enum.Enum'):
        c.kind = 'plainenum'
    elif isinstance(b, Cls) and b.name == 'GenericBitMask':
        c.kind = 'mask'
    elif isinstance(b, Cls) and (b.name == 'FixedTypeList' or b.kind == 'list'):
        assert b.name == 'FixedTypeList', c.name
        c.kind = 'list'
        init = getinit(c)
        call = [s for s in init.body if isinstance(s, ast.Expr) and isinstance(s.value, ast.Call)][0].value
        c.item = lookup(c.mod, [k for k in call.keywords if k.arg == 'pyof_class'][0].value.id)
    elif isinstance(b, Cls):
        c.kind = 'struct'
    else:
        raise Exception(c.name)
    if c.kind in ('enum', 'plainenum', 'mask'):
        c.members = []
        env = {}
        for s in c.node.body:
            if isinstance(s, ast.Assign):
                v = ev(c.mod, s.value, env)
                nm = s.targets[0].id
                if isinstance(v, int):
                    env[nm] = v
                    c.members.append((nm, v))
    if c.kind == 'struct':
        c.attrs = []
        base = b if b.kind == 'struct' else None
        if base:
            c.attrs = list(base.attrs)
        for s in c.node.body:
            if isinstance(s, ast.Assign):
                nm = s.targets[0].id
                if nm == '_allowed_types':
                    c.allowed = [x[2] if isinstance(x, tuple) else x for x in ev(c.mod, s.value, {})]
                    continue
                v = ev(c.mod, s.value, {})
                if isinstance(v, (tuple, Obj)):
                    idx = [i for i, (k, _) in enumerate(c.attrs) if k == nm]
                    if idx:
                        c.attrs[idx[0]] = (nm, v)
                    else:
                        c.attrs.append((nm, v))
        structs.append(c)


structs = []


def getinit(c):
    for s in c.node.body:
        if isinstance(s, ast.FunctionDef) and s.name == '__init__':
            return s
    return None


class Obj:
    """struct instance"""
    def __init__(self, cls):
        self.cls = cls
        self.attrs = []

    def set(self, n, v):
        for i, (k, _) in enumerate(self.attrs):
            if k == n:
                self.attrs[i] = (n, v)
                return
        self.attrs.append((n, v))

    def get(self, n):
        return dict(self.attrs)[n]


def copy(v):
    if isinstance(v, Obj):
        o = Obj(v.cls)
        o.attrs = [(k, copy(x)) for k, x in v.attrs]
        return o
    if isinstance(v, tuple) and v[0] == 'list':
        return ('list', 'FixedTypeList', v[2], [copy(x) for x in v[3]])
    return v


def size(v):
    if isinstance(v, Obj):
        s = sum(size1(a, v.get(k)) for k, a in v.cls.attrs)
        names = [v.cls.name] + [b.name for b in v.cls.bases if isinstance(b, Cls)]
        if v.cls.ver == 'v0x04' and (v.cls.name == 'Match' or 'ActionHeader' in names):
            s = (s + 7) // 8 * 8
        return s
    t = v[0]
    if t == 'uint':
        return v[1]
    if t == 'pad':
        return v[1]
    if t == 'char':
        return v[1]
    if t == 'ip':
        return 4
    if t == 'hw':
        return 6
    if t == 'dpid':
        return 8
    if t == 'bin':
        return 0 if v[1] in (None, b'') else 1 / 0
    if t == 'list':
        return sum(size(x) for x in v[3])
    raise Exception(v)


def size1(a, i):
    if isinstance(a, Obj):
        return size(a) if i is None else size(i)
    if a[0] == 'list':
        if i is None or i == []:
            return 0
        return size(i)
    if a[0] == 'bin':
        return 0 if i in (None, b'', ('bin', None)) else 1 / 0
    return size(a)


def construct(c, args, kw):
    if c.name in BASIC:
        v = args[0] if args else kw.get('value')
        er = args[1] if len(args) > 1 else kw.get('enum_ref')
        return ('uint', BASIC[c.name], er, v)
    if c.name == 'Pad':
        return ('pad', args[0] if args else kw['length'])
    if c.name == 'Char':
        assert not args
        return ('char', kw['length'], kw.get('value'))
    if c.name == 'IPAddress':
        a = args[0] if args else '0.0.0.0/32'
        x, m = a.split('/')
        return ('ip', x, int(m))
    if c.name == 'HWAddress':
        return ('hw', args[0] if args else '00:00:00:00:00:00')
    if c.name == 'DPID':
        return ('dpid', None)
    if c.name == 'BinaryData':
        return ('bin', args[0] if args else None)
    if c.name == 'FixedTypeList':
        return ('list', 'FixedTypeList', (args[0] if args else kw['pyof_class']), [])
    if c.kind == 'list':
        assert not args and not kw
        return ('list', c, c.item, [])
    if c.kind == 'struct':
        o = Obj(c)
        run_init(c, o, args, kw)
        if (c.ver, c.name) == ('v0x01', 'Match'):
            o.set('wildcards', 0x3820FF)
        return o
    raise Exception('construct ' + c.name)


def run_init(c, o, args, kw):
    if c.name == 'GenericStruct':
        for k, a in o.cls.attrs:
            o.set(k, copy(a))
        return
    if c.name == 'GenericMessage':
        run_init(lookup('pyof.foundation.base', 'GenericStruct'), o, [], {})
        h = o.get('header')
        h.set('xid', 0)   # randint(0, MAXID), see header comment of Classes.v
        return
    init = getinit(c)
    if init is None:
        return run_init(c.bases[0], o, args, kw)
    names = [a.arg for a in init.args.args][1:]
    defs = init.args.defaults
    env = {}
    for n, d in zip(names[len(names) - len(defs):], defs):
        env[n] = ev(c.mod, d, {})
    for n, a in zip(names, args):
        env[n] = a
    for k, v in kw.items():
        env[k] = v
    if init.args.kwarg:
        assert not kw
        env['kwargs'] = {}
    for s in init.body:
        if isinstance(s, ast.Expr) and isinstance(s.value, ast.Constant):
            continue
        if isinstance(s, ast.Expr) and isinstance(s.value, ast.Call):
            f = s.value.func
            if isinstance(f.value, ast.Call) and f.value.func.id == 'super':
                a = [ev(c.mod, x, env) for x in s.value.args]
                k = {x.arg: ev(c.mod, x.value, env) for x in s.value.keywords}
                run_init(c.bases[0], o, a, k)
                continue
            if f.attr == 'update_length':
                o.set('length', size(o))
                continue
            if f.attr == '_update_match_length':
                o.set('length', sum(size1(a, o.get(k)) for k, a in o.cls.attrs))
                continue
        if isinstance(s, ast.Assign) and isinstance(s.targets[0], ast.Attribute):
            t = s.targets[0]
            if isinstance(t.value, ast.Name) and t.value.id == 'self':
                o.set(t.attr, ev(c.mod, s.value, env))
                continue
            if isinstance(t.value, ast.Attribute) and t.value.attr == 'header':
                h = o.get('header')
                h.set(t.attr, ev(c.mod, s.value, env))
                continue
        if isinstance(s, ast.For) and isinstance(s.iter, ast.Call) and s.iter.func.value.id == 'kwargs':
            continue
        raise Exception('init %s: %s' % (c.name, ast.dump(s)))


def ev(mod, e, env):
    if isinstance(e, ast.Constant):
        return e.value
    if isinstance(e, ast.Name):
        if e.id in env:
            return env[e.id]
        return lookup(mod, e.id)
    if isinstance(e, ast.Attribute):
        b = ev(mod, e.value, env)
        if isinstance(b, Cls) and b.kind in ('enum', 'plainenum'):
            return ('enum', b, dict(b.members)[e.attr])
        if isinstance(b, Cls) and b.kind == 'mask':
            return dict(b.members)[e.attr]
        raise Exception(ast.dump(e))
    if isinstance(e, ast.Call):
        if isinstance(e.func, ast.Name) and e.func.id == 'Header' or isinstance(e.func, ast.Name):
            c = ev(mod, e.func, env)
            return construct(c, [ev(mod, a, env) for a in e.args], {k.arg: ev(mod, k.value, env) for k in e.keywords})
    if isinstance(e, ast.BinOp):
        a, b = ev(mod, e.left, env), ev(mod, e.right, env)
        return {ast.LShift: lambda: a << b, ast.Sub: lambda: a - b, ast.BitOr: lambda: a | b,
                ast.Add: lambda: a + b, ast.Pow: lambda: a ** b, ast.Mult: lambda: a * b}[type(e.op)]()
    if isinstance(e, (ast.Tuple, ast.List)):
        return [ev(mod, x, env) for x in e.elts]
    if isinstance(e, ast.IfExp):
        return ev(mod, e.body if truth(ev(mod, e.test, env)) else e.orelse, env)
    if isinstance(e, ast.Compare) and isinstance(e.ops[0], ast.Is):
        return ev(mod, e.left, env) is ev(mod, e.comparators[0], env)
    if isinstance(e, ast.BoolOp) and isinstance(e.op, ast.Or):
        v = None
        for x in e.values:
            v = ev(mod, x, env)
            if truth(v):
                return v
        return v
    raise Exception('ev ' + ast.dump(e))


def truth(v):
    if isinstance(v, Obj):
        return True
    if isinstance(v, tuple):
        if v[0] == 'list':
            return bool(v[3])
        return True
    return bool(v)


def pr(v, top=False):
    if isinstance(v, Obj):
        # default instance?
        if not top:
            try:
                d = construct(v.cls, [], {})
                if show(d) == show(v):
                    return 'new_' + v.cls.cid
            except Exception:
                pass
        return show(v)
    return show(v)


def par(s):
    return '(' + s + ')' if ' ' in s else s


def show(v):
    if v is None:
        return 'VNone'
    if v is True or v is False:
        return 'VInt %d' % int(v)
    if isinstance(v, int):
        return 'VInt %d' % v
    if isinstance(v, str):
        return 'VStr (txt "%s")' % v
    if isinstance(v, bytes):
        return 'VBytes [' + '; '.join(map(str, v)) + ']'
    if isinstance(v, list):
        assert v == []
        return 'VList CList CObject []'
    if isinstance(v, Obj):
        return 'VObj %s [%s]' % (v.cls.cid, '; '.join('("%s", %s)' % (k, pr(x)) for k, x in v.attrs))
    t = v[0]
    if t == 'enum':
        return 'VEnum %s %d' % (v[1].eid, v[2])
    if t == 'uint':
        return 'VUInt %d %s %s' % (v[1], '(Some %s)' % v[2].eid if v[2] else 'None', par(show(v[3])))
    if t == 'pad':
        return 'VPad %d' % v[1]
    if t == 'char':
        return 'VChar %d %s' % (v[1], par(show(v[2])))
    if t == 'ip':
        return 'VIP (VStr (txt "%s")) %d' % (v[1], v[2])
    if t == 'hw':
        return 'VHW (VStr (txt "%s"))' % v[1]
    if t == 'dpid':
        return 'VDPID VNone'
    if t == 'bin':
        return 'VBin %s' % par(show(v[1]))
    if t == 'list':
        lc = 'CFixedTypeList' if v[1] == 'FixedTypeList' else v[1].cid
        return 'VList %s %s []' % (lc, v[2].cid)
    raise Exception(v)


# ---- collect everything -------------------------------------------------
allc = []
for m in mods:
    if '.v0x01' in m or '.v0x04' in m:
        for n in mods[m][1].body:
            if isinstance(n, ast.ClassDef):
                allc.append((m, n.name))
classes = [lookup(m, n) for m, n in allc]
enums = [c for c in classes if c.kind in ('enum', 'plainenum', 'mask')]
lists = [c for c in classes if c.kind == 'list']
assert len(set(structs)) == len(structs)
assert sorted(c.cid for c in structs) == sorted(c.cid for c in classes if c.kind == 'struct')
for c in enums:
    c.eid = 'E_' + c.cid
assert len(set(c.cid for c in structs + lists)) == len(structs) + len(lists), 'dup'
assert len(set(c.eid for c in enums)) == len(enums), 'dup enum'

BUILTIN = [('CObject', 'object'), ('CInt', 'int'), ('CNone', 'NoneType'), ('CStr', 'str'), ('CBytes', 'bytes'),
           ('CEnumMember', 'any Enum member'), ('CMaskObj', 'any GenericBitMask instance'),
           ('CUBInt8', 'UBInt8'), ('CUBInt16', 'UBInt16'), ('CUBInt32', 'UBInt32'), ('CUBInt64', 'UBInt64'),
           ('CUBIntOther', 'other UBInt widths'),
           ('CPad', 'Pad'), ('CChar', 'Char'), ('CIPAddress', 'IPAddress'), ('CHWAddress', 'HWAddress'),
           ('CDPID', 'DPID'), ('CBinaryData', 'BinaryData'), ('CGenericType', 'GenericType'),
           ('CGenericStruct', 'GenericStruct'), ('CGenericMessage', 'GenericMessage'),
           ('CList', 'list'), ('CTypeList', 'TypeList'), ('CFixedTypeList', 'FixedTypeList')]
out = []
w = out.append
w('(** Identifiers of the classes and enumerations of /repo/pyof.')
w('    Generated by tools/gen_tables.py from the source text (parsed, not run). *)')
w('From Coq Require Import ZArith List String PArith.')
w('Import ListNotations.')
w('Open Scope Z_scope.')
w('')
w('(** Enumerations and bit masks. *)')
w('Inductive eid : Set :=')
for c in enums:
    w('| %s   (* %s *)' % (c.eid, c.lines))
w('.')
w('')
w('(** Classes: Python built-ins and basic types, list classes, structs. *)')
w('Inductive cid : Set :=')
for c, d in BUILTIN:
    w('| %s   (* %s *)' % (c, d))
for c in lists + structs:
    w('| %s   (* %s *)' % (c.cid, c.lines))
w('.')
allcids = [c for c, _ in BUILTIN] + [c.cid for c in lists + structs]
w('')
w('Definition cid_num (c : cid) : positive :=\n  match c with')
for i, c in enumerate(allcids):
    w('  | %s => %d' % (c, i + 1))
w('  end.')
w('Definition eid_num (e : eid) : positive :=\n  match e with')
for i, c in enumerate(enums):
    w('  | %s => %d' % (c.eid, i + 1))
w('  end.')
w('Definition all_cids : list cid :=\n  [' + '; '.join(allcids) + '].')
w('Definition all_eids : list eid :=\n  [' + '; '.join(c.eid for c in enums) + '].')
w('Definition cid_eqb (a b : cid) : bool := Pos.eqb (cid_num a) (cid_num b).')
w('Definition eid_eqb (a b : eid) : bool := Pos.eqb (eid_num a) (eid_num b).')
open(OUT + '/Ids.v', 'w').write('\n'.join(out) + '\n')

out = []
w = out.append
w('''(** Class tables of /repo/pyof/v0x01 and /repo/pyof/v0x04.
    Generated by tools/gen_tables.py from the source text (parsed, not run).

    For each enumeration: its kind and members.  For each struct class: the
    class attributes in order ([MetaStruct], base.py:272-353, puts inherited
    attributes first) and the object that the constructor called without
    arguments builds.  Simplification: GenericMessage.__init__
    (base.py:764-767) draws a random xid; the default instances hold 0. *)
From Coq Require Import ZArith List String.
From Verif Require Import Base PyText Ids PyVal.
Import ListNotations.
Open Scope string_scope.
Open Scope nat_scope.
Open Scope Z_scope.
Local Arguments VUInt w%nat er v.
Local Arguments VPad n%nat.
Local Arguments VChar len%nat v.
''')
w('Definition enum_def (e : eid) : enum_kind :=\n  match e with')
for c in enums:
    k = {'enum': 'EInt', 'plainenum': 'EPlain', 'mask': 'EMask'}[c.kind]
    w('  | %s => (* %s *)\n      %s [%s]' % (c.eid, c.lines, k, '; '.join('("%s", %s)' % (n, ('(%d)' % v if v < 0 else v)) for n, v in c.members)))
w('  end.')
w('')
for c in structs:
    w('(* %s *)' % c.lines)
    w('Definition attrs_%s : list (string * pyval) :=\n  [%s].' % (c.cid, ';\n   '.join('("%s", %s)' % (k, pr(a)) for k, a in c.attrs)))
    w('Definition new_%s : pyval :=\n  %s.' % (c.cid, pr(construct(c, [], {}), True)))
w('')
w('Definition class_attrs (c : cid) : list (string * pyval) :=\n  match c with')
for c in structs:
    w('  | %s => attrs_%s' % (c.cid, c.cid))
w('  | _ => []\n  end.')
w('')
w('(** The object built by the constructor without arguments. *)')
w('Definition new_instance (c : cid) : option pyval :=\n  match c with')
for c in structs:
    w('  | %s => Some new_%s' % (c.cid, c.cid))
for c in lists:
    w('  | %s => Some (VList %s %s [])   (* %s *)' % (c.cid, c.cid, c.item.cid, c.lines))
for n in ('8', '16', '32', '64'):
    w('  | CUBInt%s => Some (VUInt %d None VNone)' % (n, int(n) // 8))
w('  | _ => None\n  end.')
w('')
w('(** Base class (first base) of each class; [None] at the top. *)')
w('Definition class_base (c : cid) : option cid :=\n  match c with')
for c in lists:
    w('  | %s => Some CFixedTypeList' % c.cid)
for c in structs:
    b = c.bases[0]
    w('  | %s => Some %s' % (c.cid, b.cid if b.kind == 'struct' else 'C' + b.name))
w('''  | CGenericMessage => Some CGenericStruct
  | CTypeList => Some CList
  | CFixedTypeList => Some CTypeList
  | CUBInt8 | CUBInt16 | CUBInt32 | CUBInt64 | CUBIntOther | CPad | CChar
  | CIPAddress | CHWAddress | CDPID | CBinaryData => Some CGenericType
  | CObject => None
  | _ => Some CObject
  end.''')
w('')
w('(** Item class of the list classes. *)')
w('Definition list_item (c : cid) : option cid :=\n  match c with')
for c in lists:
    w('  | %s => Some %s' % (c.cid, c.item.cid))
w('  | _ => None\n  end.')
w('')
for v in ('v0x01', 'v0x04'):
    subs = [c for c in structs if c.ver == v and c.bases[0].name == 'ActionHeader']
    subs.sort(key=lambda c: c.node.lineno)
    w('(** Subclasses of the %s ActionHeader in definition order with their' % v)
    w('    _allowed_types (pyof/%s/common/action.py). *)' % v)
    w('Definition action_classes_%s : list (cid * list Z) :=\n  [%s].' % (v[-2:], ';\n   '.join('(%s, [%s])' % (c.cid, '; '.join(map(str, c.allowed))) for c in subs)))
w('')
for v in ('v0x01', 'v0x04'):
    mod = 'pyof.%s.common.utils' % v
    for n in mods[mod][1].body:
        if isinstance(n, ast.Assign) and n.targets[0].id == 'MESSAGE_TYPES':
            rows = []
            for k, x in zip(n.value.keys, n.value.values):
                e = ev(mod, k.args[0], {})
                rows.append((e[2], lookup(mod, x.id).cid))
            w('(** MESSAGE_TYPES, %s:%d-%d. *)' % (mods[mod][0], n.lineno, n.end_lineno))
            w('Definition message_types_%s : list (Z * cid) :=\n  [%s].' % (v[-2:], ';\n   '.join('(%d, %s)' % r for r in rows)))
open(OUT + '/Classes.v', 'w').write('\n'.join(out) + '\n')
print(len(enums), 'enums', len(lists), 'lists', len(structs), 'structs')
