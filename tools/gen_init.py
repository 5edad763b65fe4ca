#!/usr/bin/env python3
"""Write rocq/theories/Inits.v: the constructors (__init__) of every structure
class, transcribed from the source text (parsed, not run)."""
import ast, sys, tempfile
target = sys.argv[1] if len(sys.argv) > 1 else '/verif/rocq/theories'
sys.argv = ['gen_tables.py', tempfile.mkdtemp()]
exec(open('/verif/tools/gen_tables.py').read())
out = []
w = out.append
w('''(** The constructors of the structure classes.
    Generated by tools/gen_init.py from the source text (parsed, not run).

    [init_code c] is the __init__ written in the body of [c]: its parameters
    with their defaults, and its statements; [None] when the class inherits
    it.  Match of OpenFlow 1.0 takes any keywords, see Construct.v. *)
From Coq Require Import ZArith List String.
From Verif Require Import Base PyText Ids PyVal Classes.
Import ListNotations.
Open Scope string_scope.
Open Scope list_scope.
Open Scope nat_scope.
Open Scope Z_scope.

Inductive iexpr : Type :=
| XArg (n : string)                    (* n *)
| XConst (v : pyval)                   (* a constant, or a constructor without arguments *)
| XIfNone (n : string) (v : pyval)     (* v if n is None else n *)
| XOr (n : string) (v : pyval).        (* n or v;  n if n else v *)
Inductive istmt : Type :=
| ISuper (pos : list iexpr) (kw : list (string * iexpr))   (* super().__init__( ... ) *)
| ISet (n : string) (e : iexpr)                            (* self.n = e *)
| IHeader (n : string) (e : iexpr)                         (* self.header.n = e *)
| IUpdateLength                                            (* self.update_length() *)
| IMatchLength.                                            (* self._update_match_length() *)
''')


def expr(c, e, names):
    if isinstance(e, ast.Name) and e.id in names:
        return 'XArg "%s"' % e.id
    if isinstance(e, ast.IfExp):
        t = e.test
        if isinstance(t, ast.Compare) and isinstance(t.ops[0], ast.Is) and t.comparators[0].value is None and \
           isinstance(e.orelse, ast.Name) and e.orelse.id == t.left.id:
            return 'XIfNone "%s" %s' % (t.left.id, par(pr(val(c, e.body))))
        if isinstance(t, ast.Name) and isinstance(e.body, ast.Name) and e.body.id == t.id:
            return 'XOr "%s" %s' % (t.id, par(pr(val(c, e.orelse))))
        raise Exception(ast.unparse(e))
    if isinstance(e, ast.BoolOp):
        assert isinstance(e.op, ast.Or) and len(e.values) == 2 and e.values[0].id in names
        return 'XOr "%s" %s' % (e.values[0].id, par(pr(val(c, e.values[1]))))
    return 'XConst %s' % par(pr(val(c, e)))


def val(c, e):
    return ev(c.mod, e, {})


w('Definition init_code (c : cid) : option (list (string * pyval) * list istmt) :=\n  match c with')
for c in structs:
    init = getinit(c)
    if init is None or (c.ver, c.name) == ('v0x01', 'Match'):
        continue
    assert not init.args.kwarg and not init.args.vararg and not init.args.kwonlyargs
    names = [a.arg for a in init.args.args][1:]
    assert len(init.args.defaults) == len(names), c.name
    params = ['("%s", %s)' % (n, pr(val(c, d))) for n, d in zip(names, init.args.defaults)]
    code = []
    for s in init.body:
        if isinstance(s, ast.Expr) and isinstance(s.value, ast.Constant):
            continue
        if isinstance(s, ast.Expr) and isinstance(s.value, ast.Call):
            f = s.value.func
            if isinstance(f.value, ast.Call) and f.value.func.id == 'super':
                code.append('ISuper [%s] [%s]' % ('; '.join(expr(c, x, names) for x in s.value.args),
                                                   '; '.join('("%s", %s)' % (x.arg, expr(c, x.value, names)) for x in s.value.keywords)))
                continue
            if f.attr in ('update_length', '_update_match_length') and not s.value.args:
                code.append({'update_length': 'IUpdateLength', '_update_match_length': 'IMatchLength'}[f.attr])
                continue
        if isinstance(s, ast.Assign) and isinstance(s.targets[0], ast.Attribute) and len(s.targets) == 1:
            t = s.targets[0]
            if isinstance(t.value, ast.Name) and t.value.id == 'self':
                code.append('ISet "%s" (%s)' % (t.attr, expr(c, s.value, names)))
                continue
            if isinstance(t.value, ast.Attribute) and t.value.attr == 'header' and t.value.value.id == 'self':
                code.append('IHeader "%s" (%s)' % (t.attr, expr(c, s.value, names)))
                continue
        raise Exception('init %s: %s' % (c.name, ast.dump(s)))
    w('  | %s => (* %s:%d-%d *)\n      Some ([%s],\n        [%s])' % (c.cid, c.file, init.lineno, init.end_lineno, ';\n        '.join(params), ';\n         '.join(code)))
w('  | _ => None')
w('  end.')
open(target + '/Inits.v', 'w').write('\n'.join(out) + '\n')
