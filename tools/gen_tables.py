"""Transcribes /repo/nmea2k/lookups.go and pgn_array.go into rocq/theories/LookupTable.v and PgnTable.v.
Usage: python3 tools/gen_tables.py   (reads /repo as text)"""
import os,sys
sys.path.insert(0,os.path.dirname(__file__))
from fractions import Fraction
from pgnparse import parse_pgns, parse_lookups
OUT=os.path.join(os.path.dirname(__file__),'../rocq/theories/')
def q(s): return '"'+s.replace('"','""')+'"'
L=parse_lookups(); PG=parse_pgns()
o=['(** LookupTable: /repo/nmea2k/lookups.go, transcribed by tools/gen_tables.py.','    Every entry of every PgnLookup / PgnSubLookup literal, in source order. *)','From Verif Require Import GoBase NmeaTypes.','Open Scope string_scope.','Open Scope Z_scope.','']
for n,(k,e,line) in L.items():
    o.append(f'(** /repo/nmea2k/lookups.go:{line} *)')
    if k=='PgnLookup':
        o.append(f'Definition {n} : lookup :=\n  ['+';\n   '.join(f'({a}, {q(b)})' for a,b in e)+'].')
    else:
        o.append(f'Definition {n} : sublookup :=\n  ['+';\n   '.join(f'({a}, ['+'; '.join(f'({c}, {q(d)})' for c,d in s)+'])' for a,s in e)+'].')
open(OUT+'LookupTable.v','w').write('\n'.join(o)+'\n')
def units(u):
    if u[0]=='nil': return 'UNil'
    if u[0]=='str': return f'(UStr {q(u[1])})'
    if u[0]=='int': return f'(UInt {u[1]})'
    return f'({"ULookup" if L[u[1]][0]=="PgnLookup" else "USubLookup"} {u[1]})'
NAMES={1:'RES_ASCII',2:'RES_LATITUDE',3:'RES_LONGITUDE',4:'RES_DATE',5:'RES_TIME',6:'RES_TEMPERATURE',7:'RES_6BITASCII',8:'RES_INTEGER',9:'RES_LOOKUP',10:'RES_LOOKUP2',11:'RES_BINARY',12:'RES_MANUFACTURER',13:'RES_STRING',14:'RES_FLOAT',15:'RES_PRESSURE',16:'RES_STRINGLZ'}
def res(r):
    r=Fraction(r)
    if r==0: return 'RZero'
    if r<0:
        assert r.denominator==1
        return NAMES[-r.numerator]
    return f'(RPos {r.numerator} {r.denominator})'
o=['(** PgnTable: PgnList, /repo/nmea2k/pgn_array.go:99-3308, transcribed by tools/gen_tables.py.',
'    Field Description and SignalkPath (only printed, never decided on) are in PgnTexts; a positive',
'    Resolution is the exact rational value of its constant expression. *)','From Verif Require Import GoBase NmeaTypes LookupTable.','Open Scope string_scope.','Open Scope Z_scope.','']
for i,p in enumerate(PG):
    o.append(f'(** /repo/nmea2k/pgn_array.go:{p["line"]} *)')
    fs=';\n   '.join(f'mkfield {q(f["name"])} {f["size"]} {res(f["res"])} {"true" if f["signed"] else "false"} {units(f["units"])} ({f["off"]})' for f in p['fields'])
    o.append(f'Definition pgn_{i:03d} : pgn_def := mkpgn {q(p["desc"])} {q(p["cat"])} {p["pgn"]} {"true" if p["known"] else "false"} {p["size"]} {p["rep"]}\n  [{fs}].')
o.append('\n(** /repo/nmea2k/pgn_array.go:99-3308 *)')
o.append('Definition PgnList : list pgn_def :=\n  ['+'; '.join(f'pgn_{i:03d}' for i in range(len(PG)))+'].')
open(OUT+'PgnTable.v','w').write('\n'.join(o)+'\n')
o=['(** PgnTexts: Description and SignalkPath of every field of PgnList, /repo/nmea2k/pgn_array.go:99-3308,',
'    transcribed by tools/gen_tables.py: one list per definition, in the order of the fields. *)','From Verif Require Import GoBase.','Open Scope string_scope.','']
rows=[]
for i,p in enumerate(PG):
    rows.append('['+'; '.join(f'({q(f["desc"])}, {q(f["sk"])})' for f in p['fields'])+']')
o.append('Definition PgnTexts : list (list (string * string)) :=\n  ['+';\n   '.join(rows)+'].')
open(OUT+'PgnTexts.v','w').write('\n'.join(o)+'\n')
print(len(PG),len(L))
