"""Writes rocq/theories/Benchmarks.v from the text of the benchmark datasets in /repo."""
import ast
D = "/repo/hyperpack/benchmarks/datasets/hopper_and_turton_2000/C%d.py"
out = ['''(** * The benchmark datasets shipped with the library.

    Generated by tools/gen_benchmarks.py from the text of
    hyperpack/benchmarks/datasets/hopper_and_turton_2000/C1.py ... C7.py. *)
From Coq Require Import ZArith String List.
From Verif Require Import Py Construct Values.
Import ListNotations.
Open Scope string_scope.
Open Scope list_scope.
Open Scope Z_scope.
''']
names = []
for n in range(1, 8):
    path = D % n
    tree = ast.parse(open(path).read())
    for node in tree.body:
        assert isinstance(node, ast.Assign) and len(node.targets) == 1
        name = node.targets[0].id
        val = ast.literal_eval(node.value)
        keys = ["W", "L"] if name == "containers" else ["w", "l"]
        # the same id twice would be lost by literal_eval
        assert len(node.value.keys) == len(val)
        for v in val.values():
            assert list(v) == keys and all(type(x) is int for x in v.values()), (path, name, v)
        es = ["(\"%s\", mkDims %d %d)" % (k, v[keys[0]], v[keys[1]]) for k, v in val.items()]
        lines, cur = [], ""
        for e in es:
            if len(cur) + len(e) > 100:
                lines.append(cur); cur = ""
            cur += (e + "; ")
        lines.append(cur)
        body = "\n   ".join(lines).rstrip().rstrip(";")
        out.append("(** hyperpack/benchmarks/datasets/hopper_and_turton_2000/C%d.py:%d-%d *)" % (n, node.lineno, node.end_lineno))
        out.append("Definition C%d_%s : odict dims :=\n  [%s].\n" % (n, name, body))
    for x in "abc":
        names.append("(C%d_containers, C%d_items_%s)" % (n, n, x))
out.append('''(** The 21 problems: the containers and the items of each. *)
Definition benchmarks : list (odict dims * odict dims) :=
  [%s].
''' % ";\n   ".join("; ".join(names[i:i+3]) for i in range(0, 21, 3)))
out.append('''(** The dictionaries as they stand in the modules: [{id: {"w": ..., "l": ...}, ...}], with "W" and
    "L" for the containers. *)
Definition container_dict (l : odict dims) : pyval :=
  VDict (map (fun p => (VStr (fst p), VDict [(VStr "W", VInt (dw (snd p))); (VStr "L", VInt (dl (snd p)))])) l).
Definition item_dict (l : odict dims) : pyval :=
  VDict (map (fun p => (VStr (fst p), VDict [(VStr "w", VInt (dw (snd p))); (VStr "l", VInt (dl (snd p)))])) l).
''')
open("/verif/rocq/theories/Benchmarks.v", "w").write("\n".join(out))
