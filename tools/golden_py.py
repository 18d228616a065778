#!/usr/bin/env python3
"""Write rocq/theories/G_PySources.v from the recorded Python sources in /repo/test_cases.

The sources are read with the module ast.  Kept are the imports; the classes of __init__.py with
their constructors as text without blanks; and of each function the parameters, the names it
assigns and the other names in it.
"""
import ast
import pathlib
import re
import sys

from golden import ROOT, text
from golden_go import strings


def flat(node):
    return re.sub(r'\s', '', ast.unparse(node))


def imports(tree):
    return [a.name for n in tree.body if isinstance(n, ast.Import) for a in n.names]


def classes(tree):
    out = []
    for c in tree.body:
        if not isinstance(c, ast.ClassDef):
            continue
        inits = [f for f in c.body if isinstance(f, ast.FunctionDef)]
        if not inits:
            out.append(c.name)
            continue
        assert len(inits) == 1 and inits[0].name == '__init__'
        body = [s for s in inits[0].body if not (isinstance(s, ast.Expr) and isinstance(s.value, ast.Constant))]
        assert inits[0].args.args[0].arg == 'self'
        inits[0].args.args = inits[0].args.args[1:]
        out.append('%s(%s)%s' % (c.name, flat(inits[0].args), ';'.join(flat(s) for s in body)))
    return out


def functions(tree):
    """The functions with their parameters, assigned names and other names."""
    out = []
    for f in tree.body:
        if not isinstance(f, ast.FunctionDef) or f.name in ('_duration_from_string', '_duration_to_string'):
            continue
        params = [a.arg for a in f.args.args]
        stored, loaded = set(), set()
        for s in f.body:
            for n in ast.walk(s):
                if isinstance(n, ast.Name):
                    (stored if isinstance(n.ctx, ast.Store) else loaded).add(n.id)
                if isinstance(n, ast.ExceptHandler) and n.name:
                    stored.add(n.name)
        out.append('(%s, %s, %s, %s)' % (text(f.name), strings(params), strings(sorted(stored)),
                                         strings(sorted(loaded - stored - set(params)))))
    return '[%s]' % ';\n   '.join(out)


def main():
    out = ['(** Generated by tools/golden_py.py from /repo/test_cases: the recorded Python sources. *)',
           'From Coq Require Import String List NArith.',
           'From Verif Require Import Base M_Schema G_Cases.',
           'Import ListNotations.', '',
           '(** The name, the parameters, the names assigned, the other names *)',
           'Definition recorded_function : Type := (str * list str * list str * list str)%type.',
           'Record py_recorded_source := PySource {',
           '  ps_types : list str; ps_from : list recorded_function; ps_to : list recorded_function; ps_parse : list recorded_function;',
           '  ps_types_imports : list str; ps_from_imports : list str; ps_to_imports : list str; ps_parse_imports : list str }.', '']
    names = []
    for init in sorted(ROOT.rglob('py/test_generate/__init__.py')):
        d = init.parent
        if not (d / 'fromjsonable.py').exists():
            continue
        name = re.sub(r'\W', '_', str(d.parent.parent.relative_to(ROOT)))
        trees = {f.name: ast.parse(f.read_text()) for f in d.glob('*.py')}
        files = ('__init__.py', 'fromjsonable.py', 'tojsonable.py', 'parse.py')
        out.append('(** test_cases/%s *)' % d.relative_to(ROOT))
        out.append('Definition py_%s : py_recorded_source :=\n  PySource\n  %s\n  %s\n  %s.\n' % (
            name, strings(classes(trees['__init__.py'])), '\n  '.join(functions(trees[f]) for f in files[1:]),
            ' '.join(strings(imports(trees[f])) for f in files)))
        names.append('(schema_%s, py_%s)' % (name, name))
    out.append('Definition py_sources : list (jval * py_recorded_source) := [\n%s].' % ';\n'.join(names))
    pathlib.Path(sys.argv[1]).write_text('\n'.join(out) + '\n')
    print(len(names))


if __name__ == '__main__':
    main()
