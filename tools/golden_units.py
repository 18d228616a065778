#!/usr/bin/env python3
"""Write rocq/theories/G_UnitCases.v from the unit tests of the validation in /repo/tests.

A test assigns a mapping and compares the texts of the errors; both are taken from its syntax tree.
"""
import ast
import pathlib
import sys

from golden import text, value

TESTS = pathlib.Path('/repo/tests')


def cases(path):
    for node in ast.walk(ast.parse((TESTS / path).read_text())):
        if not isinstance(node, ast.FunctionDef) or not node.name.startswith('test_'):
            continue
        mapping, lines = None, []
        for x in node.body:
            if isinstance(x, ast.Assign) and x.targets[0].id == 'mapping':
                mapping = ast.literal_eval(x.value)
            elif isinstance(x, ast.Expr) and isinstance(x.value, ast.Call):
                for arg in x.value.args:
                    if isinstance(arg, ast.Constant) and isinstance(arg.value, str):
                        lines += arg.value.split('\n')
        assert mapping is not None and lines, node.name
        yield node.name, mapping, lines


def main():
    out = ['(** Generated by tools/golden_units.py from /repo/tests/test_validatation.py and',
           '    /repo/tests/cpp/test_validation.py: the schemas and the texts of their errors. *)',
           'From Coq Require Import String List NArith ZArith Floats.SpecFloat.',
           'From Verif Require Import Base M_Schema.', 'Import ListNotations.', '']
    for name, path in [('validation_cases', 'test_validatation.py'), ('cpp_validation_cases', 'cpp/test_validation.py')]:
        entries = ['  (* %s *)\n  (%s,\n   [%s])' % (n, value(m), ';\n    '.join(text(l) for l in ls)) for n, m, ls in cases(path)]
        out += ['Definition %s : list (jval * list str) := [' % name, ';\n'.join(entries), '].', '']
    pathlib.Path(sys.argv[1]).write_text('\n'.join(out))


if __name__ == '__main__':
    main()
