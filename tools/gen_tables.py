#!/usr/bin/env python3
"""Write rocq/theories/G_Tables.v from the instruction tables in /repo/json.

usage: gen_tables.py [json directory] > rocq/theories/G_Tables.v
"""
import glob, json, os, re, sys

KIND = [('w-oper', 'KWord'), ('l-oper', 'KLong'), ('s-oper', 'KSingle'),
        ('d-oper', 'KDouble'), ('q-oper', 'KQuad'), ('v-oper', 'KVector')]
KNOWN = {'mnemonic', 'pseudo', 'form', 'xform', 'stencil', 'fixed', 'ignore', 'alias', 'factory',
         'expand', 'overlay', 'tags', 'type', 'data', 'isa'} | {k for k, _ in KIND}


def s(x):
    assert isinstance(x, str) and '"' not in x
    return '"%s"' % x


def opt(r, k, f):
    return '(Some %s)' % f(r[k]) if k in r else 'None'


def lst(x, f=s):
    return '[' + '; '.join(f(y) for y in x) + ']'


def hexa(x):
    n = int(x, 16)
    assert 0 <= n < 2 ** 63
    return '0x%x' % n


def oper(v):
    if isinstance(v, str):
        assert v == 'all', v
        return 'OperAll'
    return '(OperList %s)' % lst(v)


def isa(x):
    m = re.fullmatch(r'(\d*)([A-Z])', x)
    return '(%s, %s)' % ('Some %s' % m.group(1) if m.group(1) else 'None', s(m.group(2)))


def overlay(o):
    assert all(m.startswith('0x') for m in o['match'])      # strtoull with base 0
    return '(%s, %s)' % (opt(o, 'base', s), opt(o, 'match', lambda m: lst(m, hexa)))


def rec(r):
    extra = set(r) - KNOWN
    assert not extra, extra
    ops = [(k, oper(r[j])) for j, k in KIND if j in r]
    return 'mkRaw %s' % ' '.join([
        opt(r, 'mnemonic', s), opt(r, 'pseudo', s), opt(r, 'form', s), opt(r, 'xform', s),
        opt(r, 'stencil', hexa), lst(r.get('fixed', [])), lst(r.get('ignore', [])),
        lst(r.get('alias', []), hexa), opt(r, 'factory', s), opt(r, 'expand', s),
        opt(r, 'overlay', overlay), lst(r.get('tags', [])), opt(r, 'type', lst),
        opt(r, 'data', lambda d: str(d % 2 ** 32)),
        '[' + '; '.join('(%s, %s)' % p for p in ops) + ']', lst(r.get('isa', []), isa)])


def main():
    d = sys.argv[1] if len(sys.argv) > 1 else '/repo/json'
    print('(** Generated by tools/gen_tables.py from /repo/json; do not edit.  One list per file, one')
    print('    record per JSON object, in file order. *)')
    print('From Coq Require Import NArith List String.')
    print('From Verif Require Import M_Meta M_Builder M_Raw.')
    print('Import ListNotations.\nLocal Open Scope N_scope.\nLocal Open Scope string_scope.')
    for p in sorted(glob.glob(os.path.join(d, '*.json'))):
        n = os.path.basename(p)[:-5]
        print('\n(** json/%s.json *)\nDefinition %s : list raw := [' % (n, n))
        print(';\n'.join('  ' + rec(r) for r in json.load(open(p))))
        print('].')


if __name__ == '__main__':
    main()
