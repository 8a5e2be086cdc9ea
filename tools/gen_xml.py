#!/usr/bin/env python3
"""Generates rocq/theories/MessageXmlFile.v from the shipped message.xml: the
'messages' map, with the 'flavor' of each entry (None if it has none)."""
import xml.etree.ElementTree as ET
src = "/repo/pyogp/lib/base/message/data/message.xml"
def val(e):
    if e.tag == "map":
        ch = list(e); d = {}
        for k, v in zip(ch[0::2], ch[1::2]):
            assert k.tag == "key"; d[k.text] = val(v)
        return d
    if e.tag == "array": return [val(x) for x in e]
    return e.text
root = val(ET.parse(src).getroot()[0])
for k in ("serverDefaults", "messages", "capBans", "maxQueuedEvents", "messageBans"): assert k in root
rows = []
for n, d in root["messages"].items():
    fl = d.get("flavor")
    rows.append('  ("%s", %s)' % (n, 'None' if fl is None else 'Some "%s"' % fl))
with open("/verif/rocq/theories/MessageXmlFile.v", "w") as f:
    f.write("(** Generated by tools/gen_xml.py: the 'messages' map of\n    pyogp/lib/base/message/data/message.xml (read by data/__init__.py:21), each\n    name with the value of its 'flavor'. *)\nFrom Verif Require Export MessageXml.\nOpen Scope string_scope.\n\nDefinition embedded_xml : xmltable := [\n" + ";\n".join(rows) + "].\n")
