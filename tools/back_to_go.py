#!/usr/bin/env python3
"""Print Go from Msg*.v and BrokerTable.v and compare it with the source, word by word.

Usage: back_to_go.py [REPO]

The other direction of gen_messages.py and gen_broker.py, sharing no code with them.
Each combinator of the model is printed as the Go statements it stands for; the
result must equal messages.gen.go, keys.go, the 48 request methods, the struct
apiVersion and negotiateApiVersions, up to comments, white space and the order of
declarations.  So nothing in these files is left out of the model or misread by the
translation, given that the statements below are what the combinators mean."""
import glob, os, re, sys
root = os.path.dirname(os.path.dirname(os.path.abspath(__file__)))
repo = sys.argv[1] if len(sys.argv) > 1 else "/repo"
def read(p): return open(p).read()
coq = "".join(read(f) for f in sorted(glob.glob(root + "/rocq/theories/Msg[01][0-9].v")))
table = read(root + "/rocq/theories/BrokerTable.v")
def words(s): return re.sub(r"//[^\n]*", "", s).split()
def declarations(path):
    """The top-level declarations of a Go file: name -> words."""
    src = re.sub(r"//[^\n]*", "", read(path))
    out = {}
    for m in re.finditer(r"^type [^\n]*[^{ \n] *$|^(func|type|const)\b(.*?)^[\)\}]$", src, re.S | re.M):
        w = m.group(0).split()
        head = re.match(r"func \(\w+ \*?(\w+)\) (\w+)|(?:func|type) (\w+)|const", " ".join(w))
        key = " ".join(x for x in head.groups() if x) or "const"
        assert key not in out, key
        out[key] = w
    return out
# --- messages ----------------------------------------------------------------
GO = {"TBool": "bool", "TInt8": "int8", "TInt16": "int16", "TInt32": "int32", "TInt64": "int64", "TString": "string",
      "TBytes": "[]byte", "TInt32Array": "[]int32", "TInt64Array": "[]int64", "TStringArray": "[]string"}
COQ = {"TBool": "bool", "TInt8": "Z", "TInt16": "Z", "TInt32": "Z", "TInt64": "Z", "TString": "gostring",
       "TBytes": "gslice Z", "TInt32Array": "gslice Z", "TInt64Array": "gslice Z", "TStringArray": "gslice gostring"}
ZERO = {"bool": "false", "Z": "0", "gostring": "[]"}
def body(name):
    m = re.search(r"^Definition %s .*?:=\s*(.*?)\.\n(?=\(\*\*|Definition|Local|Lemma)" % name, coq, re.S | re.M)
    return [l.strip() for l in m.group(1).split("\n")]
GUARD = {r"\((\d+) <=\? version\)": "version >= %s", r"\(version <=\? (\d+)\)": "version <= %s",
         r"\(\((\d+) <=\? version\) && \(version <=\? (\d+)\)\)": "version >= %s && version <= %s"}
def guarded(word, s):
    """s = [word guard X] or X; the guard in Go, and X."""
    if not s.startswith(word + " "): return None, s
    s = s[len(word) + 1:]
    for pat, go in GUARD.items():
        m = re.match(pat + " ", s)
        if m: return go % m.groups(), s[m.end():]
    raise Exception(s)
def wrap(guard, stmts): return "if %s {\n%s\n}" % (guard, stmts) if guard else stmts
def full(pat, s):
    m = re.fullmatch(pat, s)
    assert m, (pat, s)
    return m.groups()
def message(ty):
    rec = re.search(r"^Record %s : Type := mk%s \{(.*?)\}\.|^Inductive %s : Type := mk%s\.|^Record %s : Type := mk%s\b" % ((ty,) * 6), coq, re.M)
    fields = [full(r"%s_(\w+) : (.*)" % ty, x.strip()) for x in (rec.group(1) or "").split(";") if x.strip()]
    names = [f for f, _ in fields]
    # schema: names and types
    sch = re.findall(r'FCons "(\w+)" (Always|\(?[A-Z]\w+(?: \d+)*\)?) (T\w+|\(TArray (\w+)_schema\))', " ".join(body(ty + "_schema")))
    assert [x[0] for x in sch] == names, (ty, names, sch)
    gotype = {}
    for (f, c), (_, _, t, el) in zip(fields, sch):
        gotype[f] = "[]" + el if el else GO[t]
        assert c == ("gslice " + el if el else COQ[t]), (ty, f, c, t)
    # the zero value
    z = body(ty + "_zero")
    assert len(z) == 1 and z[0].split() == ["mk" + ty] + [ZERO.get(c, "None") for _, c in fields], (ty, z)
    out = {ty: "type %s struct {\n%s\n}" % (ty, "\n".join("%s %s" % (f, gotype[f]) for f in names))}
    elem = lambda f: gotype[f][2:]
    # Size; a primitive of fixed size does not name its field
    lines, st = body(ty + "_Size"), []
    assert lines[-1] in ("size_done)%size 0", "(size_done)%size 0"), (ty, lines)
    lines = lines[:-1]
    assert len(lines) == len(names)
    for k, l in enumerate(lines):
        assert l.endswith(" +>")
        g, s = guarded("size_if", (l[1:] if k == 0 else l)[:-3])
        f = names[k]
        if s.startswith("(size_loop"):
            e, f2 = full(r"\(size_loop \((\w+)_Size version\) \(%s_(\w+) t\)\)" % ty, s)
            assert f == f2 and e == elem(f)
            x = "sz += sizeof.ArrayLength\nfor i := len(t.%s) - 1; i >= 0; i-- {\nsz += t.%s[i].Size(version)\n}" % (f, f)
        elif re.fullmatch(r"\(size_add sz_(\w+)\)", s):
            x = "sz += sizeof.%s" % full(r"\(size_add sz_(\w+)\)", s)
        else:
            p, f2 = full(r"\(size_add \(sz_(\w+) \(%s_(\w+) t\)\)\)" % ty, s)
            assert f == f2
            x = "sz += sizeof.%s(t.%s)" % (p, f)
        st.append(wrap(g, x))
    out[ty + " Size"] = "func (t %s) Size(version int16) int32 {\nvar sz int32\n%s\nreturn sz\n}" % (ty, "\n".join(st))
    # Encode
    lines, st = body(ty + "_Encode"), []
    assert lines[-1] in ("skip)%enc", "(skip)%enc"), (ty, lines)
    for k, l in enumerate(lines[:-1]):
        assert l.endswith(" >>")
        g, s = guarded("put_if", (l[1:] if k == 0 else l)[:-3])
        if s.startswith("(put_array"):
            e, f = full(r"\(put_array \((\w+)_Encode version\) \(%s_(\w+) t\)\)" % ty, s)
            assert e == elem(f)
            x = "len%d := len(t.%s)\ne.PutArrayLength(len%d)\nfor i := 0; i < len%d; i++ {\nt.%s[i].Encode(e, version)\n}" % (k, f, k, k, f)
        else:
            x = "e.Put%s(t.%s)" % full(r"\(Put(\w+) \(%s_(\w+) t\)\)" % ty, s)
        st.append(wrap(g, x))
    out[ty + " Encode"] = "func (t %s) Encode(e *Encoder, version int16) {\n%s\n}" % (ty, "\n".join(st))
    # Decode
    lines, st, seen = body(ty + "_Decode"), [], []
    assert lines[-1] == ("ret (mk%s %s)" % (ty, " ".join("x_" + f for f in names))), (ty, lines[-1])
    for l in lines[:-1]:
        f, s = full(r"x_(\w+) <- (.*) ;;", l)
        seen.append(f)
        g, s = guarded("dec_if", s)
        if g:
            assert s.endswith(" (%s_%s t)" % (ty, f)), (ty, l)
            s = s[:-len(" (%s_%s t)" % (ty, f))]
        if s.startswith("(dec_array"):
            e, e2, f2 = full(r"\(dec_array \((\w+)_Decode version (\w+)_zero\) \(%s_(\w+) t\)\)" % ty, s)
            assert e == e2 == elem(f) and f == f2
            x = ("if n, err := d.ArrayLength(); err != nil {\nreturn err\n} else if n >= 0 {\nt.%s = make([]%s, n)\nfor i := 0; i < n; i++ {\n"
                 "var item %s\nif err := (&item).Decode(d, version); err != nil {\nreturn err\n}\nt.%s[i] = item\n}\n}") % (f, e, e, f)
        else:
            x = "t.%s, err = d.%s()\nif err != nil {\nreturn err\n}" % ((f,) + full(r"d(\w+)", s))
        st.append(wrap(g, x))
    assert seen == names
    out[ty + " Decode"] = "func (t *%s) Decode(d *Decoder, version int16) error {\nvar err error\n%s\nreturn err\n}" % (ty, "\n".join(st))
    return out
bad = 0
def compare(what, ours, theirs, partial=False):
    global bad
    miss = [] if partial else [k for k in theirs if k not in ours]
    diff = [k for k in ours if words(ours[k]) != theirs.get(k)]
    for k in miss: print(what, "not in the model:", k)
    for k in diff: print(what, "differs:", k, "\n  model ", " ".join(words(ours[k])), "\n  source", " ".join(theirs.get(k, [])))
    bad += len(miss) + len(diff)
    print("%s: %d declarations, %d words compared" % (what, len(ours), sum(len(words(x)) for x in ours.values())))
model = {}
types = re.findall(r"^\(\*\* \*\* (\w+) \*\)$", coq, re.M)
assert len(types) == len(set(types)) == 218
for ty in types: model.update(message(ty))
compare("messages.gen.go", model, declarations(repo + "/message/messages.gen.go"))
# --- keys and broker -----------------------------------------------------------
keys = re.findall(r"^Definition (Key\w+) : Z := (\d+)\.$", table, re.M)
compare("keys.go", {"const": "const (\n%s\n)" % "\n".join("%s = %s" % k for k in keys)}, declarations(repo + "/message/keys.go"))
apis = re.findall(r"^\| (\w+)\.?$", re.search(r"^Inductive api : Type :=\n(.*?\.)\n", table, re.S | re.M).group(1), re.M)
indexed = re.findall(r"\| (\w+) => (\d+)$", table, re.M)
assert indexed == [(a, str(i)) for i, a in enumerate(apis)]
assert re.findall(r'\| (\w+) => "(\w+)"$', table, re.M) == [(a, a) for a in apis]
assert re.search(r"Definition all_apis : list api :=\s*\[(.*?)\]\.", table).group(1).split("; ") == apis
ours = {"apiVersion": "type apiVersion struct {\n%s\n}" % "\n".join(a + " int16" for a in apis)}
cases = re.search(r"^Definition negotiation_cases .*?:=\n\s*\[(.*?)\]\.", table, re.S | re.M).group(1).split(";\n")
sw = ""
for c in cases:
    k, a, lo, hi = full(r"\((Key\w+), \((\w+), (\d+), (\d+)\)\)", c.strip())
    sw += "case message.%s:\nav.%s, err = matchVersion(apiKey, %s, %s)\nif err != nil {\nreturn apiVersion{}, err\n}\n" % (k, a, lo, hi)
ours["negotiateApiVersions"] = """func negotiateApiVersions(apiKeys []message.ApiVersionsResponseKey18) (apiVersion, error) {
var av apiVersion
var err error
for _, apiKey := range apiKeys {
switch apiKey.ApiKey {
%s}
}
return av, nil
}""" % sw
methods = re.findall(r'^Definition method_(\w+) : method :=\n  Method "(\w+)" (Key\w+) (\w+) (\d+) (\w+) (\d+) (\w+) (\w+) "(\w+)" (\w+)_codec "(\w+)" (\w+)_codec\.$', table, re.M)
for d, n, key, vh, hs, vs, he, ve, vd, rq, rqc, rs, rsc in methods:
    assert d == n and rq == rqc and rs == rsc
    ours["Broker " + n] = """func (b *Broker) %s(req message.%s) (message.%s, error) {
var resp message.%s
err := b.conn.Do(
func(e *message.Encoder, correlationID int32) {
hdr := message.RequestHeader{
RequestApiKey: message.%s,
RequestApiVersion: b.apiVersion.%s,
CorrelationId: correlationID,
ClientId: b.config.clientID,
}
size := hdr.Size(%s) + req.Size(b.apiVersion.%s)
e.PutInt32(size)
hdr.Encode(e, %s)
req.Encode(e, b.apiVersion.%s)
},
func(d *message.Decoder) error {
return (&resp).Decode(d, b.apiVersion.%s)
},
)
return resp, err
}""" % (n, rq, rs, rs, key, vh, hs, vs, he, ve, vd)
listed = re.search(r"^Definition all_methods .*?\[(.*?)\]\.", table, re.S | re.M).group(1)
assert re.findall(r"method_(\w+)", listed) == [m[0] for m in methods]
theirs = declarations(repo + "/gen.broker.go")
compare("gen.broker.go", ours, theirs, partial=True)
print("gen.broker.go, modelled by hand:", ", ".join(k for k in theirs if k not in ours))
print("differences:", bad)
sys.exit(bad > 0)
