#!/usr/bin/env python3
"""Generates rocq/theories/ShippedTemplates.v: what the regular expressions of
template_parser.py (run here by Python's own re module, Python 3) extract from the
shipped message_template.msg.  This is independent of the Rocq model of re and of
the parser; theorem C53_parsed compares the two."""
import re
src = "/repo/pyogp/lib/base/message/data/message_template.msg"
START = r'.*\{.*'; END = r'.*\}.*'
DATA = r'.*?(\w+)\s+(\w+)(\s+(\d+))?.*'
HEAD = r'.*?(\w+)\s+(\w+)\s+(\w+)\s+(\w+)\s+(\w+)(\s+(\w+))?.*'
COMMENT = r'^\s*//.*$'
SIZES = dict(U8=1, U16=2, U32=4, U64=8, S8=1, S16=2, S32=4, S64=8, F32=4, F64=8, LLVector3=12,
             LLVector3d=24, LLVector4=16, LLQuaternion=12, LLUUID=16, BOOL=1, IPADDR=4, IPPORT=2)
NAMES = dict(IPADDR="MVT_IP_ADDR", IPPORT="MVT_IP_PORT", Fixed="MVT_FIXED", Variable="MVT_VARIABLE")
DEP = {None: "LL_NOTDEPRECATED", "Deprecated": "LL_DEPRECATED", "UDPDeprecated": "LL_UDPDEPRECATED",
       "UDPBlackListed": "LL_UDPBLACKLISTED", "NotDeprecated": "LL_NOTDEPRECATED"}
state = 0; ts = []; blk = None
for line in open(src, "r", encoding="ascii"):
    if re.match(COMMENT, line, re.A): continue
    start, end = re.match(START, line), re.match(END, line)
    if start: state += 1
    if state == 1:
        m = re.match(HEAD, line, re.A)
        if m:
            n = int(m.group(3), 0)
            if m.group(2) == "Fixed": hx, n = n.to_bytes(4, "big"), n & 255
            else: hx = {"Low": b"\xff\xff", "Medium": b"\xff", "High": b""}[m.group(2)] + bytes([n & 255])
            ts.append([m.group(1), m.group(2).upper(), n, hx, {"Trusted": "LL_TRUSTED", "NotTrusted": "LL_NOTRUST"}[m.group(4)],
                       {"Unencoded": "LL_UNENCODED", "Zerocoded": "LL_ZEROCODED"}[m.group(5)], DEP[m.group(7)], []])
    if state == 2:
        m = re.match(DATA, line, re.A)
        if m:
            blk = [m.group(1), m.group(2), int(m.group(4)) if m.group(2) == "Multiple" else 0, []]
            assert m.group(2) in ("Single", "Multiple", "Variable")
            ts[-1][7].append(blk)
    if state == 3:
        m = re.match(DATA, line, re.A)
        if m:
            ty = m.group(2)
            size = int(m.group(4)) if ty in ("Fixed", "Variable") else SIZES[ty]
            blk[3].append((m.group(1), NAMES.get(ty, "MVT_" + ty), size))
    if end: state -= 1
out = ["(** Generated by tools/gen_shipped.py: what Python's re module extracts from",
       "    pyogp/lib/base/message/data/message_template.msg with the regular expressions",
       "    of template_parser.py:61-67.  Used only to state C53_parsed. *)",
       "From Verif Require Export Template.", "Local Open Scope string_scope.", "",
       "Local Definition V name ty size := {| tv_name := name; tv_type := Some ty; tv_size := Some size |}.",
       "Local Definition B name ty n vars := {| tb_name := name; tb_type := Some ty; tb_number := n; tb_vars := vars |}.",
       "Local Definition T name f n hex tr en de blocks := {| t_name := name; t_freq := Some f; t_num := n; t_hex := Some hex;",
       "  t_trust := Some tr; t_enc := Some en; t_dep := Some de; t_blocks := blocks |}.", ""]
N = 40
chunks = [ts[i:i+N] for i in range(0, len(ts), N)]
for i, c in enumerate(chunks):
    rows = []
    for t in c:
        bl = []
        for b in t[7]:
            vs = "; ".join('V "%s" %s %d' % v for v in b[3])
            bl.append('B "%s" MBT_%s %d [%s]' % (b[0], b[1].upper(), b[2], vs))
        rows.append('  T "%s" %s %d [%s] %s %s %s\n    [%s]' % (t[0], t[1], t[2], "; ".join("x%02x" % x for x in t[3]), t[4], t[5], t[6], ";\n     ".join(bl)))
    out.append("Definition shipped_%d : list template := [\n%s].\n" % (i, ";\n".join(rows)))
out.append("Definition shipped_templates : list template :=\n  List.concat [%s]." % "; ".join("shipped_%d" % i for i in range(len(chunks))))
open("/verif/rocq/theories/ShippedTemplates.v", "w").write("\n".join(out) + "\n")
print(len(ts))
