#!/usr/bin/env python3
"""Write rocq/theories/G_Cases.v from the recorded runs in /repo/test_cases.

Each schema.json with its example_*.json and the expected.out and expected.err of the three
languages becomes a definition.  What the external libraries do on the texts which occur there
(regular expressions, dates, time zones) is computed here, by Python, and written as tables.
"""
import datetime
import json
import math
import pathlib
import re
import sys
from collections import OrderedDict

ROOT = pathlib.Path('/repo/test_cases')
LANGS = [('py', 'live_test_generate_jsonable'), ('go', 'live_test_generate_jsonable'),
         ('cpp', 'live_test_generate_jsoncpp')]
DEFAULTS = {'date': '%Y-%m-%d', 'time': '%H:%M:%S', 'datetime': '%Y-%m-%dT%H:%M:%SZ'}


def text(s):
    if all(32 <= ord(c) < 127 or c == '\n' for c in s):
        return '(s_ "' + s.replace('"', '""') + '")'
    return '[' + '; '.join(str(ord(c)) for c in s) + ']%N'


def number(z):
    return '(%d)%%Z' % z


def float_(x):
    if math.isnan(x):
        return 'S754_nan'
    sign = 'true' if math.copysign(1, x) < 0 else 'false'
    if math.isinf(x):
        return '(S754_infinity %s)' % sign
    if x == 0:
        return '(S754_zero %s)' % sign
    m, e = math.frexp(abs(x))
    m, e = int(m * 2 ** 53), e - 53
    while e < -1074:
        m, e = m // 2, e + 1
    return '(S754_finite %s %d (%d)%%Z)' % (sign, m, e)


def value(v, big_as_float=False):
    if v is None:
        return 'JNull'
    if isinstance(v, bool):
        return '(JBool %s)' % str(v).lower()
    if isinstance(v, int):
        if big_as_float and not -2 ** 63 <= v < 2 ** 64:
            return '(JFloat %s)' % float_(float(v))
        return '(JInt %s)' % number(v)
    if isinstance(v, float):
        return '(JFloat %s)' % float_(v)
    if isinstance(v, str):
        return '(JStr %s)' % text(v)
    if isinstance(v, list):
        return '(JArr [%s])' % '; '.join(value(x, big_as_float) for x in v)
    return '(JObj [%s])' % ';\n  '.join('(%s, %s)' % (text(k), value(x, big_as_float)) for k, x in v.items())


def texts(v):
    if isinstance(v, str):
        yield v
    elif isinstance(v, list):
        for x in v:
            yield from texts(x)
    elif isinstance(v, dict):
        for k, x in v.items():
            yield k
            yield from texts(x)


def settings(doc):
    """Patterns and formats in the schema."""
    patterns, formats = [], []

    def visit(d):
        if isinstance(d, dict):
            for k in ('pattern', 'id_pattern'):
                if isinstance(d.get(k), str):
                    patterns.append(d[k])
            if d.get('type') in DEFAULTS:
                formats.append(d.get('format', DEFAULTS[d['type']]))
            for x in d.values():
                visit(x)
        elif isinstance(d, list):
            for x in d:
                visit(x)
    visit(doc)
    return sorted(set(patterns)), sorted(set(formats))


def tables(doc, v, lang):
    patterns, formats = settings(doc)
    ts = sorted(set(texts(v)))
    fit = {'py': re.match, 'go': re.search, 'cpp': re.fullmatch}[lang]
    ms = ['(%s, %s)' % (text(p), text(t)) for p in patterns for t in ts if fit(p, t)]
    rows = []
    for f in formats:
        for t in ts:
            try:
                d = datetime.datetime.strptime(t, f)
            except ValueError:
                continue
            assert d.tzinfo is None
            rows.append('TimeRow %s %s (Dt %s None) %s' % (
                text(f), text(t),
                ' '.join(number(x) for x in (d.year, d.month, d.day, d.hour, d.minute, d.second, d.microsecond)),
                text(d.strftime(f))))
    # The only text in the test cases which is no time zone, though it stands for one.
    zones = [text(t) for t in ts if t == 'Singidunum/Taurunum']
    return '(Tables [%s] [%s] [%s])' % ('; '.join(ms), ';\n  '.join(rows), '; '.join(zones))


def load(path):
    return json.loads(path.read_text(), object_pairs_hook=OrderedDict)


def main():
    out = ['(** Generated by tools/golden.py from /repo/test_cases: the recorded runs of the generated',
           '    code.  A definition is named after its file. *)',
           'From Coq Require Import String List NArith ZArith Floats.SpecFloat.',
           'From Verif Require Import Base M_Schema M_PyGen G_Runs.',
           'Import ListNotations.', '']
    cases = {lang: [] for lang, _ in LANGS}
    skipped = []
    for schema in sorted(ROOT.rglob('schema.json')):
        rel = schema.parent.relative_to(ROOT)
        name = re.sub(r'\W', '_', str(rel))
        doc = load(schema)
        examples = sorted(schema.parent.glob('example_*.json'))
        out.append('(** test_cases/%s/schema.json *)' % rel)
        out.append('Definition schema_%s : jval :=\n  %s.' % (name, value(doc)))
        for example in examples:
            v = load(example)
            en = name + '_' + example.stem
            done = set()
            for lang, live in LANGS:
                d = schema.parent / lang / live / example.stem
                if not d.exists():
                    continue
                err, printed = (d / 'expected.err').read_text(), (d / 'expected.out').read_text()
                if any(isinstance(x, float) and math.isinf(x) for x in floats(v)) and lang != 'py':
                    skipped.append(str(d.relative_to(ROOT)))   # the JSON library rejects the number
                    continue
                big = lang == 'cpp'
                vn = 'value_%s%s' % (en, '_cpp' if big and value(v) != value(v, True) else '')
                if vn not in done:
                    out.append('(** test_cases/%s/%s *)' % (rel, example.name))
                    out.append('Definition %s : jval :=\n  %s.' % (vn, value(v, big)))
                    done.add(vn)
                if err:
                    exp = 'ExpErrors [%s]' % '; '.join(text(l) for l in err.splitlines())
                else:
                    exp = 'ExpValue %s' % value(json.loads(printed, object_pairs_hook=OrderedDict), big)
                cases[lang].append('(%s,\n  schema_%s, %s,\n  %s)' % (tables(doc, v, lang), name, vn, exp))
        out.append('')
    for lang, _ in LANGS:
        out.append('Definition %s_cases : list (tables * jval * jval * expected) := [\n%s].\n' % (
            lang, ';\n'.join(cases[lang])))
    pathlib.Path(sys.argv[1]).write_text('\n'.join(out))
    print({k: len(v) for k, v in cases.items()}, 'skipped', skipped)


def floats(v):
    if isinstance(v, (list, dict)):
        for x in (v if isinstance(v, list) else v.values()):
            yield from floats(x)
    else:
        yield v


if __name__ == '__main__':
    main()
