"""Parse /repo/nmea2k/pgn_array.go and lookups.go (as text) into Python data."""
import re
from fractions import Fraction
REPO='/repo/nmea2k/'
PI=Fraction("3.14159265358979323846264338327950288419716939937510582097494459")
R2D=Fraction(180)/PI
CONST={'LEN_VARIABLE':0,'ACTISENSE_BEM':0x40000,'RES_NOTUSED':0,
 'RES_DEGREES':Fraction(1,10**4)*R2D,'RES_ROTATION':Fraction(1,1000)/32*R2D,'RadianToDegree':R2D,
 'RES_LAT_LONG':Fraction(1,10**7),'RES_LAT_LONG_64':Fraction(1,10**16),'RES_LAT_LONG_PRECISION':Fraction(10**7)}
for n,v in re.findall(r'const (RES_\w+) = (-\d+)\s*$',open(REPO+'pgn_array.go').read(),re.M):
    CONST[n]=int(v)
TOK=re.compile(r'\s+|//[^\n]*|/\*.*?\*/|(?P<s>"(?:[^"\\]|\\.)*")|(?P<n>0[xX][0-9a-fA-F]+|\d+\.?\d*(?:[eE][+-]?\d+)?|\.\d+)|(?P<i>\w+(?:\.\w+)?)|(?P<p>[{}\[\](),:*/+-])',re.S)
def tokens(src, base_line=1):
    pos=0; line=base_line; out=[]
    while pos<len(src):
        m=TOK.match(src,pos)
        assert m,(line,src[pos:pos+40])
        if m.lastgroup: out.append((m.lastgroup,m.group(),line))
        line+=m.group().count('\n'); pos=m.end()
    return out
def num(t):
    if t.lower().startswith('0x'): return Fraction(int(t,16))
    return Fraction(t)
class P:
    def __init__(s,toks): s.t=toks; s.i=0
    def peek(s): return s.t[s.i]
    def next(s): s.i+=1; return s.t[s.i-1]
    def eat(s,v): x=s.next(); assert x[1]==v,(x,v)
    def expr(s):
        v=s.term()
        while s.peek()[1] in '+-' : 
            o=s.next()[1]; w=s.term(); v=v+w if o=='+' else v-w
        return v
    def term(s):
        v=s.atom()
        while s.peek()[1] in '*/':
            o=s.next()[1]; w=s.atom(); v=v*w if o=='*' else Fraction(v)/w
        return v
    def atom(s):
        k,t,l=s.next()
        if t=='-': return -s.atom()
        if t=='(':
            v=s.expr(); s.eat(')'); return v
        if k=='n': return num(t)
        if k=='i': return Fraction(CONST[t])
        assert False,(k,t,l)
    def units(s):
        k,t,l=s.peek()
        if k=='s': s.next(); return ('str',eval(t))
        if t=='nil': s.next(); return ('nil',)
        if k=='i' and t.startswith('lookup'): s.next(); return ('lookup',t)
        return ('int',int(s.expr()))
def string(p):
    k,t,l=p.next(); assert k=='s',(k,t,l); v=eval(t)
    while p.peek()[1]=='+':
        p.next(); v+=string(p)
    return v
def parse_pgns():
    src=open(REPO+'pgn_array.go').read()
    a=src.index('var PgnList = PgnArray{')
    line=src[:a].count('\n')+1
    b=src.index('\n}\n',a)
    body=src[a+len('var PgnList = PgnArray{'):b]+'\n}'
    p=P(tokens(body,line)); out=[]
    while p.peek()[1]!='}':
        l=p.peek()[2]
        p.eat('{'); d=string(p); p.eat(','); c=string(p); p.eat(',')
        pgn=int(p.expr()); p.eat(','); known=p.next()[1]=='true'; p.eat(',')
        size=int(p.expr()); p.eat(','); rep=int(p.expr()); p.eat(',')
        p.eat('['); p.eat(']'); p.eat('Field'); p.eat('{')
        fs=[]
        while p.peek()[1]!='}':
            fl=p.peek()[2]
            p.eat('{'); n=string(p); p.eat(','); sz=int(p.expr()); p.eat(','); res=p.expr(); p.eat(',')
            sg=p.next()[1]=='true'; p.eat(','); u=p.units(); p.eat(',')
            ds=string(p); p.eat(','); sk=string(p); p.eat(','); off=int(p.expr())
            p.eat('}')
            if p.peek()[1]==',': p.next()
            fs.append(dict(name=n,size=sz,res=res,signed=sg,units=u,desc=ds,sk=sk,off=off,line=fl))
        p.eat('}')
        if p.peek()[1]==',': p.next()
        p.eat('}')
        if p.peek()[1]==',': p.next()
        out.append(dict(desc=d,cat=c,pgn=pgn,known=known,size=size,rep=rep,fields=fs,line=l))
    return out
def parse_lookups():
    src=open(REPO+'lookups.go').read(); out={}
    for m in re.finditer(r'^var (lookup\w+) = (PgnLookup|PgnSubLookup)\{\n(.*?)^\}',src,re.M|re.S):
        name,kind,body=m.groups(); line=src[:m.start()].count('\n')+1
        def ent(b):
            r=[]
            for k,v in re.findall(r'^\s*(0[xX][0-9a-fA-F]+|\d+):\s*"((?:[^"\\]|\\.)*)",?\s*(?://.*)?$',b,re.M):
                r.append((int(k,0),eval('"'+v+'"')))
            return r
        if kind=='PgnLookup': out[name]=(kind,ent(body),line)
        else:
            subs=[]
            for mm in re.finditer(r'^\t(\d+):\s*(?:PgnLookup)?\{\n(.*?)^\t\},?',body,re.M|re.S):
                subs.append((int(mm.group(1)),ent(mm.group(2))))
            out[name]=(kind,subs,line)
    return out
if __name__=='__main__':
    P_=parse_pgns(); print(len(P_)); L=parse_lookups(); print(len(L), {k:len(v[1]) for k,v in L.items()})
