#!/usr/bin/env python3
"""Generates rocq/theories/TemplateFile.v from the shipped message_template.msg."""
src = "/repo/pyogp/lib/base/message/data/message_template.msg"
txt = open(src, "rb").read().decode("ascii")
assert txt.endswith("\n") and "\r" not in txt
lines = txt.split("\n")[:-1]
N = 300
chunks = [lines[i:i+N] for i in range(0, len(lines), N)]
with open("/verif/rocq/theories/TemplateFile.v", "w") as f:
    f.write("(** Generated by tools/gen_template.py: the text of\n    pyogp/lib/base/message/data/message_template.msg, line by line (each line is\n    followed by a newline in the file).  Opened by data/__init__.py:20. *)\nFrom Verif Require Export Prelude.\nOpen Scope string_scope.\n\n")
    for i, c in enumerate(chunks):
        f.write("Definition lines_%d : list string := [\n" % i)
        f.write(";\n".join('"%s"' % l.replace('"', '""') for l in c))
        f.write("].\n\n")
    f.write("Definition template_lines : list string :=\n  List.concat [%s].\n\n" % "; ".join("lines_%d" % i for i in range(len(chunks))))
    f.write("Definition template_text : bytes :=\n  List.concat (map (fun l => bytes_of_string l ++ [x0a])%list template_lines).\n")
