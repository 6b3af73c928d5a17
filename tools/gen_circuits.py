#!/usr/bin/env python3
"""Transcribe the generated BDD circuits of /repo into Coq data files.

Usage: gen_circuits.py [repo] [theories-dir]

Reads fhevm/src/codegen/codegen_*.rs as text.  Every node is copied in the
order of the Rust array; nothing is simplified.  The output only contains
constants of the types of Bdd.v.
"""
import re
import sys

NAMES = [
    ("lui", "CircLui"),
    ("jalr", "CircJalr"),
    ("auipc", "CircAuipc"),
    ("ram_offset", "CircRamOffset"),
    ("pc_update", "CircPcUpdate"),
]

NEW = re.compile(r"AnyBitCircuit::B(\d+)\(BitCircuit::new\(\s*\[(.*?)\],\s*(\d+),?\s*\)\)", re.S)
NODE = re.compile(r"Node::(?:Cmux\(\s*(\d+),\s*(\d+),\s*(\d+),?\s*\)|(Copy|None))")
CONST = re.compile(r"const (INPUT_BITS|OUTPUT_BITS): usize = (\d+)(?:usize)?;")


def parse(text):
    consts = {m.group(1): int(m.group(2)) for m in CONST.finditer(text)}
    start = text.index("Circuit([")
    out = []
    for m in NEW.finditer(text, start):
        assert int(m.group(1)) == len(out)
        nodes = []
        rest = NODE.sub("", m.group(2))
        assert not rest.replace(",", "").split(), rest
        for n in NODE.finditer(m.group(2)):
            if n.group(1) is not None:
                nodes.append("C %s %s %s" % n.group(1, 2, 3))
            else:
                nodes.append("P" if n.group(4) == "Copy" else "E")
        line = text.count("\n", 0, m.start()) + 1
        last = text.count("\n", 0, m.end()) + 1
        out.append((nodes, int(m.group(3)), line, last))
    assert len(out) == consts["OUTPUT_BITS"]
    assert text.count("BitCircuit::new(") == len(out)
    return consts, out


def main():
    repo = sys.argv[1] if len(sys.argv) > 1 else "/repo"
    dest = sys.argv[2] if len(sys.argv) > 2 else "/verif/rocq/theories"
    for name, mod in NAMES:
        path = "fhevm/src/codegen/codegen_%s.rs" % name
        consts, circ = parse(open("%s/%s" % (repo, path)).read())
        lines = [
            "(** Generated by tools/gen_circuits.py from %s; do not edit. *)" % path,
            "Require Import NArith List.",
            "Require Import Verif.Bdd.",
            "Import ListNotations.",
            "Open Scope N_scope.",
            "",
        ]
        for i, (nodes, w, a, b) in enumerate(circ):
            lines.append("(** %s:%d-%d *)" % (path, a, b))
            lines.append("Definition %s_%d : bit_circuit := BC %d%%nat [" % (name, i, w))
            row = []
            size = max(w, 1)
            for k in range(0, len(nodes), size):
                row.append(";".join(nodes[k : k + size]))
            lines.append(";\n".join(row) + "].")
        lines.append("")
        lines.append("(** %s: OUTPUT_CIRCUITS, with the declared INPUT_BITS *)" % path)
        lines.append("Definition %s_circuit : circuit := MkCircuit %d [" % (name, consts["INPUT_BITS"]))
        lines.append(";\n".join("%s_%d" % (name, i) for i in range(len(circ))) + "].")
        with open("%s/%s.v" % (dest, mod), "w") as f:
            f.write("\n".join(lines) + "\n")


main()
