#!/usr/bin/env python3
"""Write rocq/theories/KafkaNames.v from tools/kafka_names.txt.

kafka_names.txt is typed by hand: for each type its field names in the order of
Kafka's message definitions, with the element type of an array in brackets.
The order of the types in the list is that of all_codecs (AllMessages.v)."""
import os, re
here = os.path.dirname(os.path.abspath(__file__))
theories = os.path.join(os.path.dirname(here), "rocq/theories")
rows = []
for line in open(os.path.join(here, "kafka_names.txt")):
    t, _, rest = line.strip().partition(":")
    rows.append((t, [re.fullmatch(r"(\w+)(?:\[(\w+)\])?", x).groups() for x in rest.split()]))
fields = dict(rows)
order = re.findall(r'\("(\w+)", \w+_codec\)', open(os.path.join(theories, "AllMessages.v")).read())
assert sorted(order) == sorted(fields)
out = ["""(** * The fields of the messages by name

    Written by tools/gen_names.py from tools/kafka_names.txt: for each type the
    names of its fields in the order in which they go over the wire.  That file was
    typed by hand from memory of Kafka's message definitions (release 2.4), by
    somebody who had been working with the code for hours; it is a second reading,
    not an independent source.  The type names (with their numbers) are the code's.
    One entry was changed after comparing with the code: CreateTopicsRequest has
    timeoutMs and validateOnly, in lower case. *)
From Coq Require Import String.
From Verif Require Import GoBase SchemaSpec Link Msg01 Msg02 Msg03 Msg04 Msg05 Msg06 Msg07 Msg08 Msg09 Msg10.
Open Scope string_scope.
"""]
done = set()
def emit(t):
    if t in done: return
    done.add(t)
    for f, a in fields[t]:
        if a: emit(a)
    body = "tt"
    for f, a in reversed(fields[t]):
        x = f"{t}_{f} t"
        if a: x = f"option_map (map {a}_named) ({x})"
        body = f"({x}, {body})"
    out.append(f"Definition {t}_named (t : {t}) : dens {t}_schema := {body}.")
for t, _ in rows: emit(t)
out.append("""
Record named_codec : Type := Named { nc_name : string; nc_codec : codec; nc_fields : list string; nc_values : c_type nc_codec -> dens (c_schema nc_codec) }."""); out.extend('Definition %s_entry : named_codec := Named "%s" %s_codec [%s] %s_named.' % (t, t, t, "; ".join('"%s"' % f for f, _ in fields[t]), t) for t in order)
out.append("Definition named_codecs : list named_codec :=\n  [" + ";\n   ".join(t + "_entry" for t in order) + "].")
open(os.path.join(theories, "KafkaNames.v"), "w").write("\n".join(out) + "\n")
