#!/usr/bin/env python3
"""Compare messages.gen.go with Msg*.v without using gen_messages.py: per type and
method, the sequence of (field, version guard, primitive), and the struct fields.
Element types of arrays, zero values and Decode's control flow are not compared."""
import glob, os, re, sys
root = os.path.dirname(os.path.dirname(os.path.abspath(__file__)))
go = open(sys.argv[1] if len(sys.argv) > 1 else "/repo/message/messages.gen.go").read()
coq = "".join(open(f).read() for f in sorted(glob.glob(root + "/rocq/theories/Msg[01][0-9].v")))

def go_guard(line):
    m = re.match(r"\s*if (version [^{]*)\{$", line)
    return m and re.sub(r"\s+", "", m.group(1)).replace("version", "v")
def coq_guard(g):
    parts = []
    for a in re.split(r"&&", g):
        m = re.match(r"\(*(\w+) <=\? (\w+)\)*$", a.strip())
        x, y = m.groups()
        parts.append("v>=" + x if y == "version" else "v<=" + y)
    return "&&".join(parts)
def go_body(ty, method):
    m = re.search(r"func \(t \*?%s\) %s\([^\n]*\{\n(.*?)\n\}\n" % (ty, method), go, re.S)
    return m.group(1).split("\n")
def go_seq(ty, method):
    out, guard, depth = [], "", None
    for line in go_body(ty, method):
        ind = len(line) - len(line.lstrip("\t"))
        g = go_guard(line)
        if g: guard, depth = g, ind; continue
        if guard and line.strip() == "}" and ind == depth: guard = ""; continue
        if method == "Size":
            m = re.match(r"\s*sz \+= sizeof\.(\w+)(?:\(t\.(\w+)\))?\s*// (\w+)", line)
            if m: out.append([m.group(3), guard, m.group(1)])
            m = re.match(r"\s*sz \+= t\.(\w+)\[i\]\.Size\(version\)", line)
            if m: assert out[-1][0] == m.group(1) and out[-1][2] == "ArrayLength"; out[-1][2] = "array"
        elif method == "Encode":
            m = re.match(r"\s*e\.Put(\w+)\(t\.(\w+)\)", line)
            if m: out.append([m.group(2), guard, m.group(1)])
            m = re.match(r"\s*t\.(\w+)\[i\]\.Encode\(e, version\)", line)
            if m: out.append([m.group(1), guard, "array"])
        else:
            m = re.match(r"\s*t\.(\w+), err = d\.(\w+)\(\)", line)
            if m: out.append([m.group(1), guard, m.group(2)])
            m = re.match(r"\s*t\.(\w+)\[i\] = item", line)
            if m: out.append([m.group(1), guard, "array"])
    return out
def coq_seq(ty, method):
    m = re.search(r"^Definition %s_%s .*?:=\n(.*?)\.\n(?=\(\*\*|Definition|Local|Lemma)" % (ty, method), coq, re.S | re.M)
    out = []
    for line in m.group(1).split("\n"):
        g = re.search(r"(?:size_if|put_if|dec_if) (\((?:\(.*?\) && \(.*?\)|[^()]*)\)) ", line)
        guard = coq_guard(re.sub(r"^\((.*)\)$", r"\1", g.group(1))) if g else ""
        f = re.search(r"\(%s_(\w+) t\)" % ty, line)
        if method == "Size":
            p = re.search(r"size_add \(?sz_(\w+)", line)
            if "size_loop" in line: out.append([f.group(1), guard, "array"])
            elif p: out.append([f.group(1) if f else None, guard, p.group(1)])
        elif method == "Encode":
            p = re.search(r"\(Put(\w+) \(", line)
            if "put_array" in line: out.append([f.group(1), guard, "array"])
            elif p: out.append([f.group(1), guard, p.group(1)])
        else:
            x = re.match(r"\s*x_(\w+) <- ", line)
            p = re.search(r"\bd(Bool|Int8|Int16|Int32|Int64|String|Bytes|Int32Array|Int64Array|StringArray)\b", line)
            if x: out.append([x.group(1), guard, "array" if "dec_array" in line else p.group(1)])
    return out
def declared(ty):
    a = re.search(r"^type %s struct \{\n(.*?)^\}" % ty, go, re.S | re.M).group(1)
    b = re.search(r"^Record %s : Type := mk%s \{(.*?)\}" % (ty, ty), coq, re.M)
    b = b.group(1) if b else ""
    return re.findall(r"^\t(\w+) ", a, re.M), re.findall(r"\b%s_(\w+) :" % ty, b)
types = re.findall(r"^type (\w+) struct", go, re.M)
bad = n = 0
for ty in types:
    fields, record = declared(ty)
    if fields != record: bad += 1; print(ty, "struct", fields, record)
    for method in ("Size", "Encode", "Decode"):
        a, b = go_seq(ty, method), coq_seq(ty, method)
        n += len(a)
        if [x[0] for x in a] != fields: bad += 1; print(ty, method, "order", fields, a)
        same = len(a) == len(b) and all((y[0] is None or x[0] == y[0]) and x[1:] == y[1:] for x, y in zip(a, b))
        if not same:
            bad += 1
            print(ty, method, "\n  go ", a, "\n  coq", b)
print(len(types), "types,", n, "fields compared,", bad, "differences")
