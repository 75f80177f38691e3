"""Transcribes /repo/map.xml into rocq/theories/MapTable.v, following the xml tags of
/repo/signalk/signalk.go:33-82.  Usage: python3 tools/gen_map.py"""
import os, re
import xml.etree.ElementTree as ET
OUT = os.path.join(os.path.dirname(os.path.abspath(__file__)), '../rocq/theories/MapTable.v')
SRC = '/repo/map.xml'
lines = open(SRC).read().split('\n')
starts = [i + 1 for i, l in enumerate(lines) if '<mapping>' in l]
def s(x): return '(str "%s")' % (x or '').replace('"', '""')
def idf(g, t):
    e = g.find(t)
    if e is None: return '(mkidf [] [])'
    return '(mkidf %s %s)' % (s(e.findtext('id')), s(e.findtext('field')))
o = ['(** MapTable: /repo/map.xml, transcribed by tools/gen_map.py with the xml tags of',
     '    /repo/signalk/signalk.go:33-82 (sentences, which the program never reads, left out). *)',
     'From Verif Require Import GoBase NmeaTypes SignalkModel.', 'Open Scope string_scope.', 'Open Scope Z_scope.', 'Open Scope list_scope.', '']
names = []
for k, (m, line) in enumerate(zip(ET.parse(SRC).getroot().findall('mapping'), starts)):
    gs = []
    for g in m.findall('parameter_group'):
        fs = g.find('fieldset')
        if fs is None: f = '(mkfs [] [])'
        else: f = '(mkfs %s [%s])' % (s(fs.get('type')), '; '.join('(%s, %d)' % (s(x.get('type')), int(x.text)) for x in fs.findall('field')))
        cs = '; '.join('mkcond %s %d %s' % (s(c.findtext('op')), int(c.findtext('field')), s(c.findtext('value'))) for c in g.findall('condition'))
        fld = g.findtext('field')
        gs.append('mkgroup %d %s %s %s %s [%s]' % (int(g.findtext('pgn')), f, s(fld) if fld else '[]', idf(g, 'multiplier'), idf(g, 'classifier'), cs))
    names.append('map_%02d' % k)
    o.append('(** /repo/map.xml:%d *)' % line)
    o.append('Definition map_%02d : mapping := mkmapping %s\n  [%s].' % (k, s(m.findtext('path')), ';\n   '.join(gs)))
o.append('\n(** /repo/map.xml *)')
o.append('Definition MapXml : mappings := [%s].' % '; '.join(names))
open(OUT, 'w').write('\n'.join(o) + '\n')
print(len(names))
