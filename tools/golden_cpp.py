#!/usr/bin/env python3
"""Write rocq/theories/G_CppSources.v from the recorded C++ sources in /repo/test_cases.

The sources are normalised as G_CppText.v says.
"""
import pathlib
import re
import sys

from golden import ROOT, text
from golden_go import blocks, strings, unquote

TOKEN = re.compile(r'''
    (?P<skip>\s+|//[^\n]*|/\*.*?\*/)
  | (?P<string>R"v0g0n\((?P<raw>.*?)\)v0g0n"|"(?:\\.|[^"\\])*")
  | (?P<char>'(?:\\.|[^'\\])')
  | (?P<number>\d+(?:\.\d+)?)
  | (?P<word>[A-Za-z_]\w*)
  | (?P<op>==|!=|<=|>=|\|\||&&|\+\+|\+=|->|::|[-+*/&!<>=.:;,()\[\]{}])''', re.X | re.S)
HELPERS = ['message', 'value_type_to_string', 'duration_from_string', 'duration_to_string', 'tm_to_string', 'add_rep_double']


def raw_tokens(code):
    i, out = 0, []
    while i < len(code):
        m = TOKEN.match(code, i)
        assert m, code[i:i + 40]
        i = m.end()
        if m.group('string'):
            s = m.group('raw') if m.group('raw') is not None else unquote(m.group())
            if out and out[-1].startswith('"'):
                out[-1] = out[-1][:-1] + s + '"'
            else:
                out.append('"' + s + '"')
        elif m.group('number'):
            out.append(re.sub(r'\.0+$', '', m.group()))
        elif not m.group('skip'):
            out.append(m.group())
    return [re.sub(r'^"(Expected [<>]=? -?\d+)\.0+,', r'"\1,', t) for t in out]


def arrows(ts):
    """Write (*a).b as a->b."""
    i = 0
    while i + 1 < len(ts):
        if ts[i] == '(' and ts[i + 1] == '*':
            depth, j = 0, i
            while True:
                depth += {'(': 1, ')': -1}.get(ts[j], 0)
                if depth == 0:
                    break
                j += 1
            if ts[j + 1] == '.':
                ts[j + 1] = '->'
                del ts[j]
                del ts[i:i + 2]
        i += 1
    return ts


# The word static of the regular expressions is left out.
RENAMED = {'constexpr': 'const', 'or': '||', 'not': '!'}


def tokens(code):
    return blocks([RENAMED.get(t, t) for t in arrows(raw_tokens(code)) if t not in ('(', ')', ',', ';', '=', 'static')])


def parts_of(code):
    code = re.sub(r'/\*.*?\*/', '', code, flags=re.S)
    code = code[code.index('namespace jsoncpp {') + len('namespace jsoncpp {'):code.index('}  // namespace jsoncpp')]
    parts = re.split(r'^(?=[A-Za-z])', code, flags=re.M)
    out = []
    for p in parts:
        m = re.match(r'[\w:]+ (\w+)\(', p)
        if m and m.group(1) not in HELPERS:
            out.append(p)
    return out


def functions(code):
    return [''.join(tokens(p)) for p in parts_of(code)]


KEYWORDS = {'if', 'else', 'for', 'const', 'constexpr', 'static', 'auto', 'throw', 'try', 'catch', 'break', 'return', 'struct', 'bool',
            'double', 'int', 'char', 'nullptr', 'true', 'false', 'or'}


def names(code):
    """The names of the parameters, and those in the body, without members, the names after :: and those
    before it which are not of a regular expression."""
    out = []
    for p in parts_of(code):
        head, body = p.split(') {\n', 1)
        params = re.findall(r'(\w+)\s*(?:,|$)', re.sub(r'<.*>', '', head.split('(', 1)[1]))
        ts = raw_tokens(body)
        used = {t for i, t in enumerate(ts) if re.match(r'[A-Za-z_]', t) and t not in KEYWORDS
                and (i == 0 or ts[i - 1] not in ('.', '->', '::'))
                and (i + 1 == len(ts) or ts[i + 1] != '::' or t.endswith('_re'))}
        out.append('(%s, %s)' % (strings(params), strings(sorted(used))))
    return '[%s]' % ';\n   '.join(out)


def members(code):
    return [''.join(tokens(re.sub(r'^public:$', '', m.group(1) + ' {' + m.group(2) + '}', flags=re.M)))
            for m in re.finditer(r'^(?:struct|class) (\w+) \{(.*?)^\};', code, flags=re.M | re.S)]


def declarations(code):
    """The declared functions without the names of their parameters."""
    code = re.sub(r'/\*.*?\*/', '', code, flags=re.S)
    out = []
    for m in re.finditer(r'^([\w:]+) (\w+)\((.*?)\);', code, flags=re.M | re.S):
        params = re.sub(r'\w+\s*(,|$)', r'\1', m.group(3).replace('std::string,', 'std::string'))
        out.append(''.join(tokens('%s %s %s' % (m.group(1), m.group(2), params))))
    return out


def includes(code):
    return re.findall(r'^#include <(.*)>', code, flags=re.M)


def main():
    out = ['(** Generated by tools/golden_cpp.py from /repo/test_cases: the recorded C++ sources, normalised',
           '    as described in G_CppText.v. *)',
           'From Coq Require Import String List NArith.',
           'From Verif Require Import Base M_Schema G_Cases.',
           'Import ListNotations.', '',
           'Record cpp_recorded_source := CppSource {',
           '  rs_functions : list str; rs_names : list (list str * list str); rs_declarations : list str; rs_types : list str; rs_types_includes : list str;',
           '  rs_header_includes : list str; rs_impl_includes : list str; rs_parse_includes : list str }.', '']
    sources = []
    for types in sorted(ROOT.rglob('cpp/test_generate/types.h')):
        d = types.parent
        name = re.sub(r'\W', '_', str(d.parent.parent.relative_to(ROOT)))
        code = {f.name: f.read_text() for f in d.iterdir()}
        out.append('(** test_cases/%s *)' % d.relative_to(ROOT))
        out.append('Definition cpp_%s : cpp_recorded_source :=\n  CppSource\n  %s\n  %s\n  %s\n  %s\n  %s.\n' % (
            name, strings(functions(code['jsoncpp.cpp'])), names(code['jsoncpp.cpp']), strings(declarations(code['jsoncpp.h'])), strings(members(code['types.h'])),
            ' '.join(strings(includes(code[f])) for f in ('types.h', 'jsoncpp.h', 'jsoncpp.cpp', 'parse.h'))))
        sources.append('(schema_%s, cpp_%s)' % (name, name))
    out.append('Definition cpp_sources : list (jval * cpp_recorded_source) := [\n%s].' % ';\n'.join(sources))
    pathlib.Path(sys.argv[1]).write_text('\n'.join(out) + '\n')
    print(len(sources))


if __name__ == '__main__':
    main()
