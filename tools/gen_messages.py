#!/usr/bin/env python3
"""Translate message/messages.gen.go into Rocq, one definition per Go method.

Usage: gen_messages.py REPO OUTDIR

Every statement of every Size/Encode/Decode method is matched against the few
statement forms the file uses; anything else aborts the translation.  The
schema of a type takes its field names, types and order from the struct
declaration and the version guards from the Size method; Encode and Decode are
translated from their own text.
"""
import re
import sys
import os

repo, out = sys.argv[1], sys.argv[2]
LINES = open(os.path.join(repo, 'message/messages.gen.go')).read().split('\n')


def strip(l):
    return re.sub(r'//.*', '', l).strip()


class T:
    pass


types, order = {}, []
i = 0
while i < len(LINES):
    m = re.match(r'^type (\w+) struct \{(\})?$', strip(LINES[i]))
    if m:
        t = T()
        t.name = m.group(1)
        t.line = i + 1
        t.fields = []
        t.doc = None
        d = re.match(r'^// (\w+); ApiKey: (\d+), Versions: (\d+)(?:-(\d+))?$', LINES[i - 1])
        if d:
            assert d.group(1) == t.name
            t.doc = (int(d.group(2)), int(d.group(3)), int(d.group(4) or d.group(3)))
        if not m.group(2):
            i += 1
            while strip(LINES[i]) != '}':
                s = strip(LINES[i])
                if s:
                    f = re.match(r'^(\w+)\s+((?:\[\])?\w+)$', s)
                    assert f, (i + 1, s)
                    t.fields.append((f.group(1), f.group(2)))
                i += 1
        t.end = i + 1
        assert t.name not in types
        types[t.name] = t
        order.append(t.name)
        i += 1
        continue
    m = re.match(r'^func \(t (\*?)(\w+)\) (Size|Encode|Decode)\(', strip(LINES[i]))
    if m:
        t = types[m.group(2)]
        kind = m.group(3)
        sig = strip(LINES[i])
        want = {'Size': f'func (t {t.name}) Size(version int16) int32 {{',
                'Encode': f'func (t {t.name}) Encode(e *Encoder, version int16) {{',
                'Decode': f'func (t *{t.name}) Decode(d *Decoder, version int16) error {{'}[kind]
        body, start = [], i + 1
        if sig == want + '}':
            pass
        else:
            assert sig == want, (i + 1, sig)
            i += 1
            while LINES[i] != '}':
                s = strip(LINES[i])
                if s:
                    body.append((i + 1, s))
                i += 1
        setattr(t, kind, (start, i + 1, body))
        i += 1
        continue
    s = strip(LINES[i])
    assert s in ('', 'package message', 'import (', ')', '"github.com/savaki/kafka/message/sizeof"'), (i + 1, s)
    i += 1

PRIM = {'bool': 'Bool', 'int8': 'Int8', 'int16': 'Int16', 'int32': 'Int32', 'int64': 'Int64',
        'string': 'String', '[]byte': 'Bytes', '[]int32': 'Int32Array', '[]int64': 'Int64Array',
        '[]string': 'StringArray'}
ROCQ = {'bool': 'bool', 'int8': 'Z', 'int16': 'Z', 'int32': 'Z', 'int64': 'Z', 'string': 'gostring',
        '[]byte': 'gslice Z', '[]int32': 'gslice Z', '[]int64': 'gslice Z', '[]string': 'gslice gostring'}
ZERO = {'bool': 'false', 'int8': '0', 'int16': '0', 'int32': '0', 'int64': '0', 'string': '[]',
        '[]byte': 'None', '[]int32': 'None', '[]int64': 'None', '[]string': 'None'}


class Stream:
    def __init__(self, body):
        self.b, self.p = body, 0

    def peek(self):
        return self.b[self.p][1] if self.p < len(self.b) else None

    def take(self, pat):
        assert self.p < len(self.b), ('unexpected end', pat)
        m = re.match('^' + pat + '$', self.b[self.p][1])
        assert m, (self.b[self.p], pat)
        self.p += 1
        return m

    def done(self):
        return self.p >= len(self.b)


def guard(st):
    s = st.peek()
    m = re.match(r'^if version >= (\d+) \{$', s)
    if m:
        st.p += 1
        return ('From', int(m.group(1)))
    m = re.match(r'^if version >= (\d+) && version <= (\d+) \{$', s)
    if m:
        st.p += 1
        return ('Between', int(m.group(1)), int(m.group(2)))
    return None


def statements(st, one, stop):
    """list of (guard, item); one guard may cover several statements"""
    res = []
    while not stop(st):
        g = guard(st)
        if g is None:
            res.append((None, one(st)))
        else:
            while st.peek() != '}':
                res.append((g, one(st)))
            st.take(r'\}')
    return res


def one_size(st):
    s = st.peek()
    m = re.match(r'^sz \+= sizeof\.ArrayLength$', s)
    if m:
        st.p += 1
        f = st.take(r'for i := len\(t\.(\w+)\) - 1; i >= 0; i-- \{').group(1)
        st.take(r'sz \+= t\.' + f + r'\[i\]\.Size\(version\)')
        st.take(r'\}')
        return ('array', f)
    m = re.match(r'^sz \+= sizeof\.(Bool|Int8|Int16|Int32|Int64)$', s)
    if m:
        st.p += 1
        return ('const', m.group(1))
    m = re.match(r'^sz \+= sizeof\.(Bytes|String|Int32Array|Int64Array|StringArray)\(t\.(\w+)\)$', s)
    assert m, s
    st.p += 1
    return ('val', m.group(1), m.group(2))


def one_encode(st):
    s = st.peek()
    m = re.match(r'^(len\d+) := len\(t\.(\w+)\)$', s)
    if m:
        st.p += 1
        ln, f = m.group(1), m.group(2)
        st.take(r'e\.PutArrayLength\(' + ln + r'\)')
        st.take(r'for i := 0; i < ' + ln + r'; i\+\+ \{')
        st.take(r't\.' + f + r'\[i\]\.Encode\(e, version\)')
        st.take(r'\}')
        return ('array', f)
    m = re.match(r'^e\.Put(Bool|Int8|Int16|Int32|Int64|Bytes|String|Int32Array|Int64Array|StringArray)\(t\.(\w+)\)$', s)
    assert m, s
    st.p += 1
    return ('val', m.group(1), m.group(2))


def one_decode(st):
    s = st.peek()
    if s == 'if n, err := d.ArrayLength(); err != nil {':
        st.p += 1
        st.take('return err')
        st.take(r'\} else if n >= 0 \{')
        m = st.take(r't\.(\w+) = make\(\[\](\w+), n\)')
        f, ty = m.group(1), m.group(2)
        st.take(r'for i := 0; i < n; i\+\+ \{')
        st.take('var item ' + ty)
        st.take(r'if err := \(&item\)\.Decode\(d, version\); err != nil \{')
        st.take('return err')
        st.take(r'\}')
        st.take(r't\.' + f + r'\[i\] = item')
        st.take(r'\}')
        st.take(r'\}')
        return ('array', f, ty)
    m = re.match(r'^t\.(\w+), err = d\.(Bool|Int8|Int16|Int32|Int64|Bytes|String|Int32Array|Int64Array|StringArray)\(\)$', s)
    assert m, s
    st.p += 1
    st.take(r'if err != nil \{')
    st.take('return err')
    st.take(r'\}')
    return ('val', m.group(2), m.group(1))


def cond(g):
    if g[0] == 'From':
        return f'({g[1]} <=? version)'
    return f'(({g[1]} <=? version) && (version <=? {g[2]}))'


def rng(g):
    if g is None:
        return 'Always'
    if g[0] == 'From':
        return f'(From {g[1]})'
    return f'(Between {g[1]} {g[2]})'


for n in order:
    t = types[n]
    st = Stream(t.Size[2])
    if t.Size[2]:
        st.take('var sz int32')
    t.sz = statements(st, one_size, lambda s: s.done() or s.peek() == 'return sz')
    if t.Size[2]:
        st.take('return sz')
    assert st.done()
    st = Stream(t.Encode[2])
    t.enc = statements(st, one_encode, lambda s: s.done())
    st = Stream(t.Decode[2])
    if t.Decode[2]:
        st.take('var err error')
    t.dec = statements(st, one_decode, lambda s: s.done() or s.peek() == 'return err')
    if t.Decode[2]:
        st.take('return err')
    assert st.done()


def nested(ty):
    return ty[2:] if ty.startswith('[]') and ty[2:] in types else None


# dependency order, keeping the source order otherwise
emitted, seq = set(), []


def visit(n):
    if n in emitted:
        return
    emitted.add(n)
    for _, ty in types[n].fields:
        if nested(ty):
            visit(nested(ty))
    seq.append(n)


for n in order:
    visit(n)


def emit(n):
    t = types[n]
    o = []
    names = [f for f, _ in t.fields]
    P = lambda f: f'{n}_{f}'
    fty = dict(t.fields)
    o.append(f'(** ** {n} *)\n')
    o.append(f'(** message/messages.gen.go:{t.line}-{t.end} *)')
    fl = '; '.join(f'{P(f)} : ' + (f'gslice {nested(ty)}' if nested(ty) else ROCQ[ty]) for f, ty in t.fields)
    o.append(f'Record {n} : Type := mk{n} {{ {fl} }}.' if fl else f'Record {n} : Type := mk{n} {{ }}.')
    o.append('(** the zero value ([var item %s]) *)' % n)
    o.append(f'Definition {n}_zero : {n} := mk{n} ' + ' '.join('None' if nested(ty) else ZERO[ty] for _, ty in t.fields) + '.')
    # Size
    o.append(f'(** message/messages.gen.go:{t.Size[0]}-{t.Size[1]} *)')
    o.append(f'Definition {n}_Size (version : Z) (t : {n}) : Z :=')
    parts = []
    for g, it in t.sz:
        if it[0] == 'const':
            f = f'(size_add sz_{it[1]})'
        elif it[0] == 'val':
            f = f'(size_add (sz_{it[1]} ({P(it[2])} t)))'
        else:
            f = f'(size_loop ({nested(fty[it[1]])}_Size version) ({P(it[1])} t))'
        parts.append(f'size_if {cond(g)} {f}' if g else f)
    o.append('  (' + ' +>\n   '.join(parts + ['size_done']) + ')%size 0.')
    # Encode
    o.append(f'(** message/messages.gen.go:{t.Encode[0]}-{t.Encode[1]} *)')
    o.append(f'Definition {n}_Encode (version : Z) (t : {n}) : Encoder -> Encoder :=')
    parts = []
    for g, it in t.enc:
        if it[0] == 'val':
            f = f'(Put{it[1]} ({P(it[2])} t))'
        else:
            f = f'(put_array ({nested(fty[it[1]])}_Encode version) ({P(it[1])} t))'
        parts.append(f'put_if {cond(g)} {f}' if g else f)
    o.append('  (' + ' >>\n   '.join(parts + ['skip']) + ')%enc.')
    # Decode
    o.append(f'(** message/messages.gen.go:{t.Decode[0]}-{t.Decode[1]} *)')
    o.append(f'Definition {n}_Decode (version : Z) (t : {n}) : Dec {n} :=')
    for g, it in t.dec:
        f = it[2] if it[0] == 'val' else it[1]
        if it[0] == 'val':
            m = f'd{it[1]}'
        else:
            m = f'(dec_array ({it[2]}_Decode version {it[2]}_zero) ({P(f)} t))'
        o.append(f"  x_{f} <- " + (f'dec_if {cond(g)} {m} ({P(f)} t)' if g else m) + ' ;;')
    got = {(it[2] if it[0] == 'val' else it[1]) for _, it in t.dec}
    o.append(f'  ret (mk{n} ' + ' '.join(f'x_{f}' if f in got else f'({P(f)} t)' for f in names) + ').')
    # schema: names/types/order from the struct, guards from Size
    guards = {}
    assert len(t.sz) == len(t.fields), n
    for (g, it), (f, ty) in zip(t.sz, t.fields):
        if it[0] != 'const':
            assert it[-1] == f, (n, it, f)
        guards[f] = g
    o.append('(** the struct declaration read as a schema; version ranges as in Size *)')
    s = 'FNil'
    for f, ty in reversed(t.fields):
        ts = f'(TArray {nested(ty)}_schema)' if nested(ty) else 'T' + PRIM[ty]
        s = f'FCons "{f}" {rng(guards[f])} {ts}\n  ({s})' if s != 'FNil' else f'FCons "{f}" {rng(guards[f])} {ts} FNil'
    o.append(f'Definition {n}_schema : fields :=\n  {s}.')
    # to / of
    e = 'tt'
    for f, ty in reversed(t.fields):
        v = f'option_map (map {nested(ty)}_to) ({P(f)} t)' if nested(ty) else f'{P(f)} t'
        e = f'({v}, {e})'
    o.append(f'Definition {n}_to (t : {n}) : dens {n}_schema := {e}.')
    args, acc = [], 'x'
    for f, ty in t.fields:
        p = f'(fst {acc})'
        args.append(f'(option_map (map {nested(ty)}_of) {p})' if nested(ty) else p)
        acc = f'(snd {acc})'
    o.append(f'Definition {n}_of (x : dens {n}_schema) : {n} := mk{n} ' + ' '.join(args) + '.')
    o.append(f'Definition {n}_codec : codec := Codec {n} {n}_zero {n}_Size {n}_Encode {n}_Decode {n}_schema {n}_to {n}_of.')
    nest = []
    for f, ty in t.fields:
        if nested(ty) and nested(ty) not in nest:
            nest.append(nested(ty))
    o.append(f'Lemma {n}_linked : linked {n}_codec.')
    o.append('Proof.')
    o.append(f'  apply Linked; cbn [{n}_codec c_type c_zero c_size c_encode c_decode c_schema c_to c_of].')
    rw = ' '.join(f'rewrite ?(option_map_map_inv {k}_to {k}_of _ (l_of_to _ {k}_linked)).' for k in nest)
    o.append(f'  - intros t. destruct t. cbv [{n}_of {n}_to]. cbn [fst snd {" ".join(P(f) for f in names)}]. {rw} reflexivity.' if names else
             f'  - intros t. destruct t. reflexivity.')
    rw = ' '.join(f'rewrite ?(option_map_map_inv {k}_of {k}_to _ (l_to_of _ {k}_linked)).' for k in nest)
    o.append(f'  - intros x. unfold {n}_schema in x. cbn [dens den] in x. '
             + ''.join(f'destruct x as [x{k} x]. ' for k in range(len(names))) + 'destruct x. '
             + f'cbv [{n}_of {n}_to]. cbn [fst snd {" ".join(P(f) for f in names)}]. {rw} reflexivity.')
    o.append(f'  - reflexivity.')
    def steps(lemma, var, prim, arr):
        for f, ty in t.fields:
            k = nested(ty)
            tac = arr(k, guards[f]) if k else prim(guards[f])
            o.append(f'    apply {lemma}; [{tac}|].')
    o.append(f'  - intros v t. unfold {n}_Size, {n}_schema, {n}_to. apply size_start.')
    steps('size_step', 'sz', lambda g: 'intros sz; reflexivity',
          lambda k, g: f'intros sz; apply (size_field_link ({k}_Size v) {k}_schema {k}_to v (l_size _ {k}_linked v)' + (' _' if g else ' true') + ')')
    o.append('    intros sz; reflexivity.')
    o.append(f'  - intros v t. unfold {n}_Encode, {n}_schema, {n}_to.')
    steps('enc_step', 'e', lambda g: 'intros e; reflexivity',
          lambda k, g: f'intros e; apply (put_field_link ({k}_Encode v) {k}_schema {k}_to v (l_encode _ {k}_linked v)' + (' _' if g else ' true') + ')')
    o.append('    intros e; reflexivity.')
    o.append(f'  - intros v t. unfold {n}_Decode, {n}_schema, {n}_to.')
    for f, ty in t.fields:
        k = nested(ty)
        if k:
            inner = f'apply (dec_array_link _ _ {k}_of {k}_to (l_decode _ {k}_linked v {k}_zero) (l_of_to _ {k}_linked))'
            old = f'symmetry; apply (option_map_map_inv {k}_to {k}_of _ (l_of_to _ {k}_linked))'
            conv = f'(option_map (map {k}_of))'
        else:
            inner = 'apply dmap_id'
            old = 'reflexivity'
            conv = f'(fun x : {ROCQ[ty]} => x)'
        if guards[f]:
            o.append(f'    dec_field {conv}; [apply dec_if_link; [{inner}|{old}]|intros x_{f}].')
        else:
            o.append(f'    dec_field {conv}; [{inner}|intros x_{f}].')
    o.append('    intros d; reflexivity.')
    o.append('Qed.')
    o.append(f'Local Opaque {n}_Size {n}_Encode {n}_Decode.\n')
    return '\n'.join(o)


HEAD = '''(** * Generated message types (part %d of %d).

    Written by tools/gen_messages.py from message/messages.gen.go, one
    definition per Go method; do not edit.  A Decode method that fails leaves
    a partly filled receiver behind, which no caller looks at; the model drops
    it. *)
From Coq Require Import String.
From Verif Require Import GoBase Encoder Decoder Sizeof SchemaSpec Schema Link.
'''
PER = 22
chunks, cur = [], []
for n in seq:
    cur.append(n)
    # cut only after a top-level message, so that nested types stay with it
    if len(cur) >= PER and types[n].doc:
        chunks.append(cur)
        cur = []
if cur:
    chunks.append(cur)
where = {}
for k, ch in enumerate(chunks):
    deps = set()
    for n in ch:
        where[n] = k
        for _, ty in types[n].fields:
            if nested(ty) and where[nested(ty)] != k:
                deps.add(where[nested(ty)])
    with open(os.path.join(out, f'Msg{k+1:02d}.v'), 'w') as fh:
        fh.write(HEAD % (k + 1, len(chunks)))
        for dpt in sorted(deps):
            fh.write(f'From Verif Require Import Msg{dpt+1:02d}.\n')
        fh.write('Open Scope Z_scope.\n\n')
        for n in ch:
            fh.write(emit(n) + '\n')
with open(os.path.join(out, 'AllMessages.v'), 'w') as fh:
    fh.write('''(** * The list of all %d generated message types.

    Written by tools/gen_messages.py; do not edit. *)
From Coq Require Import String.
From Verif Require Import GoBase Link %s.
Open Scope string_scope.

Definition all_codecs : list (string * codec) :=
''' % (len(seq), ' '.join(f'Msg{k+1:02d}' for k in range(len(chunks)))))
    fh.write('  [' + ';\n   '.join(f'("{n}", {n}_codec)' for n in order) + '].\n\n')
    fh.write('Lemma all_linked : Forall (fun nc => linked (snd nc)) all_codecs.\nProof.\n  unfold all_codecs.\n')
    for n in order:
        fh.write(f'  apply Forall_cons; [exact {n}_linked|].\n')
    fh.write('  apply Forall_nil.\nQed.\n\n')
    docs = [n for n in order if types[n].doc]
    fh.write('(** The doc comment of each top-level message: api key, lowest and highest\n    version (e.g. message/messages.gen.go:23). *)\n')
    fh.write('Definition message_docs : list (string * (Z * Z * Z)) :=\n  [')
    fh.write(';\n   '.join(f'("{n}", ({types[n].doc[0]}, {types[n].doc[1]}, {types[n].doc[2]})%Z)' for n in docs) + '].\n')
print(len(seq), 'types in', len(chunks), 'files')
