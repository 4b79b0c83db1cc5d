#!/usr/bin/env python3
"""Writes rocq/theories/G_Golden.v from the project's own regression test: test/basic/main.cpp
says what is decoded with which table, test/basic/golden.out what the program is expected to
print.  Taken over: the printed decode tables, and the disassembly of every instruction that the
test makes from an opcode."""
import os, re, sys

REPO = sys.argv[1] if len(sys.argv) > 1 else "/repo"
OUT = sys.argv[2] if len(sys.argv) > 2 else os.path.join(
    os.path.dirname(os.path.abspath(__file__)), "..", "rocq", "theories", "G_Golden.v")
main = open(os.path.join(REPO, "test/basic/main.cpp")).read().split("\n")
gold = open(os.path.join(REPO, "test/basic/golden.out")).read().split("\n")
consts = {}
for f in ("mavis/DecoderConsts.h",):
    for m in re.finditer(r"(CANONICAL_\w+)\s*=\s*(0x[0-9a-fA-F]+)", open(os.path.join(REPO, f)).read()):
        consts[m.group(1)] = int(m.group(2), 16)
for l in main:
    m = re.search(r"Opcode\s+(\w+)\s*=\s*(0x[0-9a-fA-F]+)", l)
    if m:
        consts[m.group(1)] = int(m.group(2), 16)

# The table in use at each line of main.cpp.
ctx, files, at = None, {}, []
rv32 = "BASE"
for n, l in enumerate(main):
    m = re.search(r"MavisType mavis_facade\(", l)
    if m:
        ctx = "BASE"
    if re.search(r"MavisType mavis_facade_rv32\(", l):
        ctx = "RV32"
    m = re.search(r'switchContext\("(\w+)"\)', l)
    if m:
        ctx = m.group(1)
    at.append(ctx)
text = "\n".join(main)
def files_of(start):
    body = text[start:]
    body = body[body.index("{") + 1:]
    body = body[:body.index("}")]
    body = re.sub(r"//[^\n]*", "", body)
    return [f.replace("json/", "").replace("uarch/", "").replace(".json", "") for f in re.findall(r'"([^"]+)"', body)]
files["BASE"] = files_of(text.index("MavisType mavis_facade("))
files["RV32"] = files_of(text.index("MavisType mavis_facade_rv32("))
for m in re.finditer(r'makeContext\("(\w+)",', text):
    files[m.group(1)] = files_of(m.end())

def opcode(n):
    for i in range(n - 1, -1, -1):
        m = re.search(r"= mavis_facade(?:_rv32)?\.make\w*\(", main[i])
        if m:
            m = re.search(r"\.makeInst\((?:mavis::)?(\w+), ", main[i])
            if not m:
                return None
            a = m.group(1)
            return int(a, 16) if a.startswith("0x") else consts.get(a)
        if "morphInst" in main[i]:
            return None
    return None

dasm = []
for g in gold:
    m = re.match(r"line (\d+): DASM[^=]*= (.*)$", g)
    if not m:
        continue
    n = int(m.group(1)) - 1
    ic = opcode(n)
    if ic is not None:
        dasm.append((at[n], ic, m.group(2), n + 1))

# Observations of made instructions: the printed ones and the asserted ones.
BITS = {"A-Sources": "GAddr", "D-Sources": "GData", "Int-Sources": "GInt Src", "Float-Sources": "GFloat Src",
        "Int-Dests": "GInt Dst", "Float-Dests": "GFloat Dst"}
F = r"mavis::InstMetaData::OperandFieldID::(\w+)"
SIDE = {"Source": "Src", "Dest": "Dst"}


def num(x):
    x = x.rstrip("ul")
    return int(x, 2) if x.startswith("0b") else int(x, 0)


def sub(rx, l):
    m = re.search(r"assert\((!? ?)inst->" + rx + r"\);", l)
    return m and [m.group(1).strip() == ""] + list(m.groups()[1:])


def asserted(l):
    m = sub(r"getMnemonic\(\) == \"([^\"]+)\"", l)
    if m: return 'GMnemonic "%s"' % m[1]
    m = sub(r"getUID\(\) == NOP_UID", l)
    if m: return "GUid 1"
    m = sub(r"getImmediate\(\) == (\w+)", l)
    if m: return "GImm 0x%x" % num(m[1])
    m = sub(r"hasImmediate\(\)(?: == true)?", l)
    if m: return "GHasImm %s" % str(m[0]).lower()
    m = sub(r"getSignedOffset\(\) == (-?\d+)", l)
    if m: return "GOffset (%s)%%Z" % m[1]
    m = sub(r"get(Int|Float|Vector)(Source|Dest)Regs\(\) == (\w+)", l)
    if m: return "G%s %s 0x%x" % (m[1], SIDE[m[2]], num(m[3]))
    m = sub(r"getSpecialField\(mavis::OpcodeInfo::SpecialField::(\w+)\) == (\w+)", l)
    if m: return "GSpecial SF_%s 0x%x" % (m[1], num(m[2]))
    m = sub(r"isInstType\(mavis::InstMetaData::InstructionTypes::(\w+)\)(?: == (\d))?", l)
    if m: return 'GType "%s" %s' % (m[1].lower(), str(m[2] != "0" and m[0]).lower())
    m = sub(r"isExtInstType\(mavis::DecodedInstructionInfo::ExtractedInstTypes::(\w+)\)", l)
    if m: return "GExt EXT_%s %s" % (m[1], str(m[0]).lower())
    m = sub(r"get(Source|Dest)OpInfo\(\)\.hasFieldID\(" + F + r"\)", l)
    if m: return "GField %s %s %s" % (SIDE[m[1]], m[2], str(m[0]).lower())
    m = sub(r"get(Source|Dest)OpInfo\(\)\.getFieldValue\(" + F + r"\) == (\w+)", l)
    if m: return "GValue %s %s %d" % (SIDE[m[1]], m[2], num(m[3]))
    m = sub(r"get(Source|Dest)OpInfo\(\)\.getFieldType\(" + F + r"\) == mavis::OpcodeInfo::OperandTypes::(\w+)", l)
    if m: return "GKind %s %s K%s" % (SIDE[m[1]], m[2], m[3].capitalize())
    m = sub(r"getSourceOpInfo\(\)\.isStoreData\(" + F + r"\) == (true|false)", l)
    if m: return "GStoreData %s %s" % (m[1], m[2])
    m = sub(r"getSourceOpInfo\(\)\.isImplied\(" + F + r"\)", l)
    if m: return "GImplied %s true" % m[1]
    m = sub(r"getSourceOpInfo\(\)\.hasImpliedOperand\(\)", l)
    if m: return "GAnyImplied"
    m = sub(r"getTags\(\)\.isMember\(\"(\w+)\"\)", l)
    if m: return 'GTag "%s" %s' % (m[1], str(m[0]).lower())
    return None


obs, unused = [], []
for n, l in enumerate(main):
    if "assert(" not in l or re.match(r"\s*//", l):
        continue
    a = asserted(l)
    ic = opcode(n)
    if a and ic is not None:
        obs.append((at[n], ic, a, n + 1))
    elif ic is not None and "nullptr" not in l:
        unused.append((n + 1, l.strip()))
for g in gold:
    m = re.match(r"line (\d+): (Has Immediate\?|[\w-]+):? (.*)$", g)
    if not m:
        continue
    n = int(m.group(1)) - 1
    k, v, ic = m.group(2), m.group(3), opcode(n)
    if ic is None:
        continue
    if k in BITS:
        obs.append((at[n], ic, "%s 0x%x" % (BITS[k], int(v, 2)), n + 1))
    elif k == "Has Immediate?":
        obs.append((at[n], ic, "GHasImm %s" % ("true" if v == "YES" else "false"), n + 1))
    elif k == "Signed-offset":
        x = int(v, 16)
        obs.append((at[n], ic, "GOffset (%d)%%Z" % (x - 2 ** 64 if x >> 63 else x), n + 1))
    elif k != "DASM":
        unused.append((n + 1, g))
for u in unused:
    print("not taken over: line %d: %s" % u, file=sys.stderr)

trees, cur = [], None
for i, g in enumerate(gold):
    if g.startswith("IFactoryMatchListComposite::Field family") and not (cur is not None):
        cur = []
    if cur is not None:
        if g.startswith("line ") or g.startswith("=====") or g.startswith("Opcode ") or g.startswith("DTable"):
            trees.append(cur)
            cur = None
        else:
            cur.append(g)
def tset(f):
    for l in open(os.path.join(REPO, "test/basic", f + ".tset")):
        if l.strip():
            a, b = l.strip().split(",")
            yield a, int(b, 16)


names = ["BASE", "NEW", "T0", "T1", "T2", "RV32", "ZCLSD"]
assert len(trees) == len(names)


def s(x):
    return '"%s"' % x.replace('"', '""')


def line(g):
    """Indentation depth and the rest; the value of a default entry is left out."""
    m = re.match(r"((?:\|\t)*)(.*)$", g)
    rest = re.sub(r"^(\[default\]: '[^']*'), value=0x[0-9a-f]+,", r"\1,", m.group(2))
    return "(%d%%nat, %s)" % (len(m.group(1)) // 2, s(rest))


def table(f):
    return "tab_" + f if f == "isa_tagged" else f


sys.path.insert(0, os.path.dirname(os.path.abspath(__file__)))
import gen_tables
with open(OUT, "w") as o:
    o.write("""(** Generated by tools/gen_golden.py from /repo/test/basic/main.cpp and golden.out; do not edit. *)
From Coq Require Import NArith ZArith List String.
From Verif Require Import M_Meta M_Extract M_Decoded M_OpcodeInfo M_Builder M_Raw G_Tables S_Golden.
Import ListNotations.
Local Open Scope N_scope.
Local Open Scope string_scope.
""")
    for f in ("isa_tagged",):
        o.write("\n(** test/basic/%s.json *)\nDefinition tab_%s : list raw := [\n" % (f, f))
        o.write(";\n".join("  " + gen_tables.rec(r) for r in
                           gen_tables.json.load(open(os.path.join(REPO, "test/basic", f + ".json")))))
        o.write("].\n")
    for c in names:
        o.write("\n(** The files of table %s, in order. *)\nDefinition files_%s : list (list raw) :=\n  [%s].\n"
                % (c, c, "; ".join(table(f) for f in files[c])))
        o.write("\n(** The disassembly expected of opcodes with table %s (with the line of main.cpp). *)\n"
                "Definition dasm_%s : list (N * N * string) := [\n" % (c, c))
        o.write(";\n".join("  (%d, 0x%x, %s)" % (n, ic, s(t)) for k, ic, t, n in dasm if k == c))
        o.write("].\n")
        o.write("\n(** What main.cpp asserts or golden.out shows of opcodes with table %s. *)\n"
                "Definition obs_%s : list (N * N * gobs) := [\n" % (c, c))
        o.write(";\n".join("  (%d, 0x%x, %s)" % (n, ic, t) for k, ic, t, n in obs if k == c))
        o.write("].\n")
        o.write("\n(** The text expected for the tree of table %s: depth and text of each line. *)\n"
                "Definition tree_%s : list (nat * string) := [\n" % (c, c))
        o.write(";\n".join("  " + line(g) for g in trees[names.index(c)]))
        o.write("].\n")
    for f in ("rv64", "rv64h", "rv64_bf16", "rv64_bits"):
        o.write("\n(** test/basic/%s.tset *)\nDefinition tset_%s : list (string * N) := [\n" % (f, f))
        o.write(";\n".join("  (%s, 0x%x)" % (s(a), b) for a, b in tset(f)))
        o.write("].\n")
