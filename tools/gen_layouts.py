#!/usr/bin/env python3
"""Write rocq/theories/SourceTable.v: the declarations of message/messages.gen.go as layouts.

The versions of a field are those under which Size counts it.  Nothing depends on this
program being right: SourceTable.v ends in proofs that the layouts give the text of the file."""
import re, sys
repo = sys.argv[1] if len(sys.argv) > 1 else "/repo"
src = open(repo + "/message/messages.gen.go").read()
PRIM = {"bool": "PBool", "int8": "PInt8", "int16": "PInt16", "int32": "PInt32", "int64": "PInt64", "string": "PString", "[]byte": "PBytes", "[]int32": "PInt32s", "[]int64": "PInt64s", "[]string": "PStrings"}
structs = {m[1]: re.findall(r"^\t(\w+)\s+(\S+)", m[2], re.M) for m in re.finditer(r"^type (\w+) struct \{\n(.*?)^\}", src, re.M | re.S)}
ranges = {}
for m in re.finditer(r"^func \(t (\w+)\) Size\(version int16\) int32 \{\n(.*?)^\}", src, re.M | re.S):
    now = "Always"
    for line in m[2].split("\n"):
        g = re.match(r"\tif version >= (\d+)(?: && version <= (\d+))? \{", line)
        if g: now = "(Between %s %s)" % g.groups() if g[2] else "(From %s)" % g[1]
        elif line == "\t}": now = "Always"
        f = re.search(r"sz \+= sizeof\..*// (\w+)$", line)
        if f: ranges[m[1], f[1]] = now
        if line == "\t}": now = "Always"
out = ["""(** * The layouts of message/messages.gen.go, and that they give its text

    Written by tools/gen_layouts.py. *)
From Coq Require Import String.
From Verif Require Import GoBase SchemaSpec Link AllMessages GoLang SourceMessages SourceLayout.
Local Open Scope string_scope.
Local Open Scope list_scope.
Local Open Scope Z_scope.
"""]
done = set()
def emit(t):
    if t in done: return
    done.add(t); body = "NNil"
    for f, ty in reversed(structs[t]):
        if ty in PRIM: n = "(NPrim %s)" % PRIM[ty]
        else: emit(ty[2:]); n = '(NArray "%s" %s_fields)' % (ty[2:], ty[2:])
        body = '(NCons "%s" %s %s %s)' % (f, ranges[t, f], n, body)
    out.append("Definition %s_fields : nfields := %s." % (t, body))
for t in structs: emit(t)
out.append("Definition layouts : list (string * nfields) :=\n  [" + ";\n   ".join('("%s", %s_fields)' % (t, t) for t in structs) + "].")
out.append("""
(** The whole text. *)
Lemma types_text : k_types messages = map (fun p => (fst p, struct_type (snd p))) layouts.
Proof. reflexivity. Qed.
Lemma funcs_text : k_funcs messages = flat_map texts layouts.
Proof. reflexivity. Qed.
Lemma globals_text : k_globals messages = [].
Proof. reflexivity. Qed.
(** The schemas of the model. *)
Lemma schemas : map (fun p => (fst p, c_schema (snd p))) all_codecs = map (fun p => (fst p, erase (snd p))) layouts.
Proof. reflexivity. Qed.""")
open("/verif/rocq/theories/SourceTable.v" if len(sys.argv) < 3 else sys.argv[2], "w").write("\n".join(out) + "\n")
