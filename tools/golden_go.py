#!/usr/bin/env python3
"""Write rocq/theories/G_GoSources.v from the recorded Go sources in /repo/test_cases.

The sources are normalised as G_GoText.v says: without blanks, comments, parentheses, commas and
semicolons, with a block after each else, and without the difference between the comparisons.
"""
import pathlib
import re
import sys

from golden import ROOT, text

TOKEN = re.compile(r'''
    (?P<skip>\s+|//[^\n]*|[(),;])
  | (?P<string>"(?:\\.|[^"\\])*"|`[^`]*`)
  | (?P<number>\d+(?:\.\d+)?)
  | (?P<word>[A-Za-z_]\w*)
  | (?P<op>:=|==|!=|<=|>=|\|\||&&|\+\+|[-+*/&!<>=.\[\]{}])''', re.X)


def unquote(s):
    if s[0] == '`':
        return s[1:-1]
    return re.sub(r'\\(.)', lambda m: {'n': '\n', 't': '\t', '"': '"', '\\': '\\'}[m.group(1)], s[1:-1])


def tokens(code):
    i, out = 0, []
    while i < len(code):
        m = TOKEN.match(code, i)
        assert m, code[i:i + 40]
        i = m.end()
        if m.group('string'):
            s = unquote(m.group())
            # the bounds of floats in the messages
            s = re.sub(r'^(expected [<>]=? -?\d+)\.0+,', r'\1,', s)
            out.append('"' + s + '"')
        elif m.group('number'):
            out.append(re.sub(r'\.0+$', '', m.group()))
        elif m.group('op'):
            out.append(m.group())
        elif m.group('word'):
            out.append(m.group())
    return out


def blocks(ts):
    """Open a block after each else which is followed by if."""
    def closing(i):     # the index after the block which starts at i
        depth = 0
        while True:
            depth += {'{': 1, '}': -1}.get(ts[i], 0)
            i += 1
            if depth == 0:
                return i

    i = 0
    while i < len(ts):
        if ts[i] == 'else' and ts[i + 1] == 'if':
            j = i + 1
            while True:     # the end of the chain
                # A condition has no composite literal, hence the next brace opens the block.
                j = closing(ts.index('{', j))
                if j < len(ts) and ts[j] == 'else':
                    j += 1
                    continue
                break
            ts[j:j] = ['}']
            ts[i + 1:i + 1] = ['{']
        i += 1
    return ts


def declarations(code, what):
    parts = re.split(r'^(?=(?:func|type|var|import|package|//))', code, flags=re.M)
    return [p for p in parts if p.startswith(what + ' ')]


def functions(code):
    return [''.join(blocks(tokens(d))) for d in declarations(code, 'func')
            if not re.match(r'func (durationFromString|durationToString|addDuration)\(', d)]


# Type assertions follow a dot, too.
TYPES = {'bool', 'float64', 'string'}
KEYWORDS = {'if', 'else', 'for', 'range', 'var', 'func', 'return', 'break', 'defer', 'map', 'interface', 'struct'}


def names(code):
    """The names of the parameters and results, and those in the body, without fields and methods."""
    out = []
    for d in declarations(code, 'func'):
        if re.match(r'func (durationFromString|durationToString|addDuration)\(', d):
            continue
        head, body = d.split(') {\n', 1)
        params = re.findall(r'(\w+) [^\s,()][^,()]*', head.split('(', 1)[1])
        ts = tokens(body)
        used = {t for i, t in enumerate(ts) if re.match(r'[A-Za-z_]', t) and t not in KEYWORDS and t != '_'
                and (i == 0 or ts[i - 1] != '.' or t in TYPES)}
        out.append('(%s, %s)' % (strings(params), strings(sorted(used))))
    return '[%s]' % ';\n   '.join(out)


def imports(code):
    ds = declarations(code, 'import')
    assert len(ds) <= 1, ds
    return re.findall(r'"([^"]*)"', ds[0]) if ds else []


def strings(l):
    return '[%s]' % ';\n   '.join(text(x) for x in l)


def main():
    out = ['(** Generated by tools/golden_go.py from /repo/test_cases: the recorded Go sources, normalised',
           '    as described in G_GoText.v. *)',
           'From Coq Require Import String List NArith.',
           'From Verif Require Import Base M_Schema G_Cases.',
           'Import ListNotations.', '',
           'Record go_source := GoSource {',
           '  gs_from : list str; gs_to : list str; gs_types : list str; gs_regexes : list str;',
           '  (** the parameters with the results, and the names in the body *)',
           '  gs_from_names : list (list str * list str); gs_to_names : list (list str * list str);',
           '  gs_from_imports : list str; gs_to_imports : list str; gs_types_imports : list str;',
           '  gs_from_test_imports : list str; gs_to_test_imports : list str; gs_parse_imports : list str }.', '']
    sources = []
    for types in sorted(ROOT.rglob('go/test_generate/types.go')):
        d = types.parent
        rel = d.parent.parent.relative_to(ROOT)
        name = re.sub(r'\W', '_', str(rel))
        code = {f.name: f.read_text() for f in d.glob('*.go')}
        regexes = [''.join(tokens(x)).replace('"', '') for x in declarations(code['from_jsonable.go'], 'var')
                   if not x.startswith('var durationRe ')]
        structs = [''.join(tokens(x)) for x in declarations(code['types.go'], 'type')]
        out.append('(** test_cases/%s *)' % d.relative_to(ROOT))
        out.append('Definition go_%s : go_source :=\n  GoSource\n  %s\n  %s\n  %s\n  %s\n  %s\n  %s\n  %s.\n' % (
            name, strings(functions(code['from_jsonable.go'])), strings(functions(code['to_jsonable.go'])),
            strings(structs), strings(regexes), names(code['from_jsonable.go']), names(code['to_jsonable.go']),
            ' '.join(strings(imports(code[f])) for f in ('from_jsonable.go', 'to_jsonable.go', 'types.go', 'from_jsonable_test.go',
                                                           'to_jsonable_test.go', 'parse.go'))))
        sources.append('(schema_%s, go_%s)' % (name, name))
    out.append('Definition go_sources : list (jval * go_source) := [\n%s].' % ';\n'.join(sources))
    pathlib.Path(sys.argv[1]).write_text('\n'.join(out) + '\n')
    print(len(sources))


if __name__ == '__main__':
    main()
