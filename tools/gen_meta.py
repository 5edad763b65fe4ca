#!/usr/bin/env python3
"""Write rocq/theories/Bodies.v: the name, module and class body of every class
of the tables, transcribed from the source text (parsed, not run)."""
import ast, sys, tempfile
target = sys.argv[1] if len(sys.argv) > 1 else '/verif/rocq/theories'
sys.argv = ['gen_tables.py', tempfile.mkdtemp()]
exec(open('/verif/tools/gen_tables.py').read())
out = []
w = out.append
w('''(** Name, module and class body of the classes of the tables.
    Generated by tools/gen_meta.py from the source text (parsed, not run).

    A body is the sequence of its assignments and function definitions; the
    right-hand side is [Some] object for GenericType and GenericStruct
    instances and [None] for anything else. *)
From Coq Require Import ZArith List String.
From Verif Require Import Base PyText Ids PyVal Classes.
Import ListNotations.
Open Scope string_scope.
Open Scope nat_scope.
Open Scope Z_scope.
Local Arguments VUInt w%nat er v.
Local Arguments VPad n%nat.
Local Arguments VChar len%nat v.
''')
w('(** __name__ and __module__; the others are outside the versioned packages. *)')
w('Definition class_place (c : cid) : string * string :=\n  match c with')
for c in lists + structs:
    w('  | %s => ("%s", "%s")' % (c.cid, c.name, c.mod))
w('  | CInt | CObject | CNone | CStr | CBytes | CList | CEnumMember => ("", "builtins")')
w('  | CGenericType | CGenericStruct | CGenericMessage | CMaskObj => ("", "pyof.foundation.base")')
w('  | _ => ("", "pyof.foundation.basic_types")')
w('  end.')
w('')
w('(** First base and body, in source order. *)')
w('Definition class_body (c : cid) : option (cid * list (string * option pyval)) :=\n  match c with')
for c in structs:
    b = c.bases[0]
    base = b.cid if isinstance(b, Cls) and b.kind == 'struct' else 'CGenericMessage' if 'Message' in (b.name if isinstance(b, Cls) else str(b)) else 'CGenericStruct'
    body = []
    for s in c.node.body:
        if isinstance(s, ast.Assign):
            nm = s.targets[0].id
            assert nm != '_removed_attributes'
            v = None if nm == '_allowed_types' else ev(c.mod, s.value, {})
            body.append((nm, 'Some (%s)' % pr(v) if isinstance(v, (tuple, Obj)) else 'None'))
        elif isinstance(s, ast.FunctionDef):
            body.append((s.name, 'None'))
        elif not (isinstance(s, ast.Expr) and isinstance(s.value, ast.Constant)) and not isinstance(s, ast.Pass):
            raise Exception(ast.dump(s))
    w('  | %s => (* %s *)\n      Some (%s, [%s])' % (c.cid, c.lines, base, ';\n        '.join('("%s", %s)' % x for x in body)))
w('  | _ => None')
w('  end.')
open(target + '/Bodies.v', 'w').write('\n'.join(out) + '\n')
