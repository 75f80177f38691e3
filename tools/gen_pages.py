#!/usr/bin/env python3
"""Copies the templates of /repo verbatim into rocq/theories/PagesText.v and its mapping file into
rocq/theories/MapText.v."""
import os
ROOT = os.path.dirname(os.path.dirname(os.path.abspath(__file__)))
out = ["(** PagesText: the templates of /repo/templates, copied verbatim by tools/gen_pages.py. *)",
       "From Verif Require Import GoBase.", "Open Scope string_scope.", ""]
for f in ("layout", "index", "apps"):
    t = open("/repo/templates/%s.gtpl" % f).read()
    assert all(ord(c) < 128 for c in t)
    out.append("(** /repo/templates/%s.gtpl:1-%d *)" % (f, len(t.rstrip("\n").split("\n"))))
    out.append('Definition %s_gtpl : string := "%s".' % (f, t.replace('"', '""')))
open(os.path.join(ROOT, "rocq/theories/PagesText.v"), "w").write("\n".join(out) + "\n")
t = open("/repo/map.xml", newline="").read()
assert all(ord(c) < 128 for c in t)
open(os.path.join(ROOT, "rocq/theories/MapText.v"), "w", newline="").write(
    "(** MapText: /repo/map.xml, copied verbatim by tools/gen_pages.py. *)\nFrom Verif Require Import GoBase.\nOpen Scope string_scope.\n\n"
    "(** /repo/map.xml:1-%d *)\nDefinition map_xml : string := \"%s\".\n" % (len(t.rstrip("\n").split("\n")), t.replace('"', '""')))
