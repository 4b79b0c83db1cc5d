#!/usr/bin/env python3
"""Write rocq/theories/G_Texts.v from the instruction tables in /repo/json: the texts of the
numbers and isa entries, as they stand in the files.

usage: gen_texts.py [json directory] > rocq/theories/G_Texts.v
"""
import glob, json, os, sys


def s(x):
    assert isinstance(x, str) and '"' not in x
    return '"%s"' % x


def lst(x):
    return '[' + '; '.join(s(y) for y in x) + ']'


def rec(r):
    o = r.get('overlay', {})
    return 'mkTexts %s %s %s %s' % (
        '(Some %s)' % s(r['stencil']) if 'stencil' in r else 'None', lst(r.get('alias', [])),
        '(Some %s)' % lst(o['match']) if 'match' in o else 'None', lst(r.get('isa', [])))


def main():
    d = sys.argv[1] if len(sys.argv) > 1 else '/repo/json'
    names = []
    print('(** Generated by tools/gen_texts.py from /repo/json; do not edit.  One list per file, one')
    print('    entry per JSON object, in file order. *)')
    print('From Coq Require Import List String.')
    print('From Verif Require Import M_Raw M_Text G_Tables.')
    print('Import ListNotations.\nLocal Open Scope string_scope.')
    for p in sorted(glob.glob(os.path.join(d, '*.json'))):
        n = os.path.basename(p)[:-5]
        names.append(n)
        print('\n(** json/%s.json *)\nDefinition %s_texts : list texts := [' % (n, n))
        print(';\n'.join('  ' + rec(r) for r in json.load(open(p))))
        print('].')
    print('\n(** Each table with its texts. *)\nDefinition shipped_texts : list (list raw * list texts) := [')
    print(';\n'.join('  (%s, %s_texts)' % (n, n) for n in names))
    print('].')


main()
