"""Transcribes every #[bitfield] structure of /repo into rocq/theories/Layouts.v."""
import re, os
SRC = "/repo/src/"
ROOT = os.path.dirname(os.path.dirname(os.path.abspath(__file__)))
structs = []
for d, _, fs in sorted(os.walk(SRC)):
    for fn in sorted(fs):
        path = os.path.join(d, fn)
        lines = open(path).read().split("\n")
        for i, l in enumerate(lines):
            m = re.match(r"#\[bitfield\((u\d+)", l)
            if not m: continue
            word = int(m.group(1)[1:])
            j = i
            while not re.match(r"pub struct (\w+)", lines[j]): j += 1
            name = re.match(r"pub struct (\w+)", lines[j]).group(1)
            fields = []; bits = None; k = j + 1
            while lines[k].strip() != "}":
                b = re.match(r"\s*#\[bits\((\d+)", lines[k])
                if b: bits = int(b.group(1))
                f = re.match(r"\s*(?:pub )?(\w+):\s*(\w+),\s*$", lines[k])
                if f:
                    w = bits if bits is not None else {"bool": 1, "u8": 8, "u16": 16}[f.group(2)]
                    fields.append((f.group(1), w, f.group(2))); bits = None
                k += 1
            assert sum(w for _, w, _ in fields) == word, (name, fields)
            structs.append((os.path.relpath(path, SRC), j + 1, k + 1, name, word, fields))
out = ['''(** Bit field structures: every [#[bitfield]] of the crate, transcribed from the source by
    tools/gen_layouts.py (field names and widths in declaration order). *)
From Verif Require Import Base Bits.
Local Open Scope string_scope.
Local Open Scope N_scope.
''']
for f, a, b, name, word, fields in structs:
    out.append(f"(** /repo/src/{f}:{a}-{b} [{name}: u{word}] *)")
    out.append(f"Definition {name}_layout : layout :=\n  [ " + ";\n    ".join(f'("{n}", {w})' for n, w, _ in fields) + " ].\n")
out.append("(** name, word size and layout of every structure *)")
out.append("Definition all_layouts : list (string * (N * layout)) :=\n  [ " + ";\n    ".join(f'("{s[3]}", ({s[4]}, {s[3]}_layout))' for s in structs) + " ].")
open(ROOT + "/rocq/theories/Layouts.v", "w").write("\n".join(out) + "\n")
print(len(structs))
