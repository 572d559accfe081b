#!/usr/bin/env python3
"""Translate the tables of gen.broker.go and message/keys.go into Rocq.

Usage: gen_broker.py REPO OUTDIR

Each of the 48 request methods is matched line by line against the one shape
they share; every identifier and literal in it is read separately, so a method
that used another key, version field or type would show in the table.  Anything
that does not match aborts the translation."""
import os
import re
import sys

repo, out = sys.argv[1], sys.argv[2]
L = open(os.path.join(repo, 'gen.broker.go')).read().split('\n')
K = open(os.path.join(repo, 'message/keys.go')).read().split('\n')

keys = []
for n, l in enumerate(K, 1):
    m = re.match(r'^\tKey(\w+)\s*= (\d+)$', l)
    if m:
        keys.append((m.group(1), int(m.group(2)), n))

# fields of apiVersion
fields = []
i = next(n for n, l in enumerate(L) if l == 'type apiVersion struct {')
fstart = i + 1
i += 1
while L[i] != '}':
    m = re.match(r'^\t(\w+)\s+int16$', L[i])
    assert m, L[i]
    fields.append(m.group(1))
    i += 1
fend = i + 1

SHAPE = [
    r'^func \(b \*Broker\) (?P<name>\w+)\(req message\.(?P<req>\w+)\) \(message\.(?P<resp>\w+), error\) \{$',
    r'^\tvar resp message\.(?P<resp2>\w+)$',
    r'^\terr := b\.conn\.Do\($',
    r'^\t\t// encode request$',
    r'^\t\tfunc\(e \*message\.Encoder, correlationID int32\) \{$',
    r'^\t\t\thdr := message\.RequestHeader\{$',
    r'^\t\t\t\tRequestApiKey:     message\.Key(?P<key>\w+),$',
    r'^\t\t\t\tRequestApiVersion: b\.apiVersion\.(?P<vhdr>\w+),$',
    r'^\t\t\t\tCorrelationId:     correlationID,$',
    r'^\t\t\t\tClientId:          b\.config\.clientID,$',
    r'^\t\t\t\}$',
    r'^\t\t\tsize := hdr\.Size\((?P<hs>\d+)\) \+ req\.Size\(b\.apiVersion\.(?P<vsize>\w+)\)$',
    r'^\t\t\te\.PutInt32\(size\)$',
    r'^\t\t\thdr\.Encode\(e, (?P<he>\d+)\)$',
    r'^\t\t\treq\.Encode\(e, b\.apiVersion\.(?P<venc>\w+)\)$',
    r'^\t\t\},$',
    r'^\t\t// decode response$',
    r'^\t\tfunc\(d \*message\.Decoder\) error \{$',
    r'^\t\t\treturn \(&resp\)\.Decode\(d, b\.apiVersion\.(?P<vdec>\w+)\)$',
    r'^\t\t\},$',
    r'^\t\)$',
    r'^\treturn resp, err$',
    r'^\}$',
]
methods = []
for n, l in enumerate(L):
    if re.match(r'^func \(b \*Broker\) \w+\(req ', l):
        g = {}
        for k, pat in enumerate(SHAPE):
            m = re.match(pat, L[n + k])
            assert m, (n + k + 1, L[n + k])
            g.update(m.groupdict())
        assert g['resp'] == g['resp2']
        g['line'] = (n + 1, n + len(SHAPE))
        methods.append(g)

# the switch of negotiateApiVersions
i = next(n for n, l in enumerate(L) if l.startswith('func negotiateApiVersions'))
j = next(n for n, l in enumerate(L) if l == '\t\tswitch apiKey.ApiKey {')
cases = []
n = j + 1
while L[n] != '\t\t}':
    a = re.match(r'^\t\tcase message\.Key(\w+):$', L[n])
    b = re.match(r'^\t\t\tav\.(\w+), err = matchVersion\(apiKey, (-?\d+), (-?\d+)\)$', L[n + 1])
    assert a and b, L[n]
    assert L[n + 2:n + 5] == ['\t\t\tif err != nil {', '\t\t\t\treturn apiVersion{}, err', '\t\t\t}'], n
    cases.append((a.group(1), b.group(1), int(b.group(2)), int(b.group(3)), n + 1))
    n += 5
assert L[n + 1:n + 4] == ['\t}', '\treturn av, nil', '}']

o = []
w = o.append
w('(** * Tables of gen.broker.go and message/keys.go.')
w('')
w('    Written by tools/gen_broker.py; do not edit. *)')
w('From Coq Require Import String.')
w('From Verif Require Import GoBase Link Msg01 Msg02 Msg03 Msg04 Msg05 Msg06 Msg07 Msg08 Msg09 Msg10.')
w('')
w('(** The fields of the struct apiVersion, gen.broker.go:%d-%d. *)' % (fstart, fend))
w('Inductive api : Type :=')
w('\n'.join('| %s' % f for f in fields) + '.')
w('Definition api_index (a : api) : Z :=\n  match a with')
for k, f in enumerate(fields):
    w('  | %s => %d' % (f, k))
w('  end.')
w('Definition api_name (a : api) : string :=\n  match a with')
for k, f in enumerate(fields):
    w('  | %s => "%s"' % (f, f))
w('  end%string.')
w('Definition all_apis : list api :=\n  [%s].' % '; '.join(fields))
w('')
w('(** message/keys.go:%d-%d *)' % (keys[0][2], keys[-1][2]))
for k, v, n in keys:
    w('Definition Key%s : Z := %d.' % (k, v))
w('')
w('(** The cases of the switch in negotiateApiVersions, gen.broker.go:%d-%d: the' % (j + 1, n and cases[-1][4] + 4))
w('    constant, the field assigned, and the two literals given to matchVersion. *)')
w('Definition negotiation_cases : list (Z * (api * Z * Z)) :=')
w('  [' + ';\n   '.join('(Key%s, (%s, %s, %s))' % (a, b, c, d) for a, b, c, d, _ in cases) + '].')
w('')
w('''(** What the 48 request methods of Broker differ in.  The shape they share is
    modelled in Broker.v. *)
Record method : Type := Method {
  m_name : string;       (** the method *)
  m_key : Z;             (** RequestApiKey of the header *)
  m_v_header : api;      (** field giving RequestApiVersion *)
  m_header_size : Z;     (** literal in hdr.Size *)
  m_v_size : api;        (** field in req.Size *)
  m_header_encode : Z;   (** literal in hdr.Encode *)
  m_v_encode : api;      (** field in req.Encode *)
  m_v_decode : api;      (** field in resp.Decode *)
  m_req_name : string; m_req : codec;
  m_resp_name : string; m_resp : codec
}.
''')
for g in methods:
    w('(** gen.broker.go:%d-%d *)' % g['line'])
    w('Definition method_%s : method :=' % g['name'])
    w('  Method "%s" Key%s %s %s %s %s %s %s "%s" %s_codec "%s" %s_codec.' % (
        g['name'], g['key'], g['vhdr'], g['hs'], g['vsize'], g['he'], g['venc'], g['vdec'],
        g['req'], g['req'], g['resp'], g['resp']))
w('')
w('Definition all_methods : list method :=')
w('  [' + ';\n   '.join('method_%s' % g['name'] for g in methods) + '].')
open(os.path.join(out, 'BrokerTable.v'), 'w').write('\n'.join(o) + '\n')
print(len(keys), len(fields), len(cases), len(methods))
