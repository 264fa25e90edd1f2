import re
class Sym(str): pass
class Str:
    def __init__(s,b): s.b=b
class Rx:
    def __init__(s,b,o): s.b=b; s.o=o
class Rng:
    def __init__(s,a,b,e): s.a=a;s.b=b;s.e=e
class Cplx:
    def __init__(s,v): s.v=v
class Rat:
    def __init__(s,n,d): s.n=n;s.d=d
class S:
    def __init__(s,l): s.l=l; s.line=0
LINES=True
class Fail(Exception): pass
CLOSE={'(':')','[':']','{':'}','<':'>'}
ESC={'n':10,'t':9,'r':13,'0':0,'e':27,'s':32,'a':7,'b':8,'v':11,'f':12}
class P:
    def __init__(s,t,i=0,env=None): s.t=t; s.i=i; s.env=env or {}
    def ws(s):
        while True:
            m=re.match(r'[ \t]*#[^\n]*\n',s.t[s.i:]) if s.t[s.i:s.i+1] in '# ' else None
            if not m: break
            s.i+=m.end()
        while s.i<len(s.t) and s.t[s.i] in ' \n\t': s.i+=1
    def eat(s,x):
        s.ws()
        if not s.t.startswith(x,s.i): raise Fail(f"expected {x!r} at {s.t[s.i:s.i+40]!r}")
        s.i+=len(x)
    def at(s,x): s.ws(); return s.t.startswith(x,s.i)
    def dq(s,close,open_=None,interp=True,rx=False):
        out=bytearray(); depth=0; t=s.t
        while True:
            if s.i>=len(t): raise Fail("eof")
            c=t[s.i]
            if c==close and depth==0: s.i+=1; return bytes(out)
            if open_ and c==open_: depth+=1
            if open_ and c==close: depth-=1
            if c=='\\':
                n=t[s.i+1]
                if not interp:
                    if n==close or n=='\\' or (open_ and n==open_): out+=n.encode(); s.i+=2
                    else: out+=b'\\'; s.i+=1
                    continue
                if rx:
                    if n=='/': out+=b'/'
                    else: out+=('\\'+n).encode()
                    s.i+=2; continue
                s.i+=2
                if n=='x':
                    m=re.match(r'[0-9a-fA-F]{1,2}',t[s.i:]); out.append(int(m.group(),16)); s.i+=len(m.group())
                elif n in '01234567':
                    m=re.match(r'[0-7]{1,3}',t[s.i-1:]); out.append(int(m.group(),8)&255); s.i+=len(m.group())-1
                elif n=='u':
                    if t[s.i]=='{':
                        j=t.index('}',s.i)
                        for h in t[s.i+1:j].split(): out+=chr(int(h,16)).encode()
                        s.i=j+1
                    else: out+=chr(int(t[s.i:s.i+4],16)).encode(); s.i+=4
                elif n=='\n': pass
                elif n in 'cCM': raise Fail("ctrl")
                elif n in ESC: out.append(ESC[n])
                else: out+=n.encode()
                continue
            if interp and c=='#' and t[s.i+1:s.i+2]=='{':
                j=t.index('}',s.i); v=t[s.i+2:j].strip()
                if v not in s.env: raise Fail("interp "+v)
                out+=s.env[v].encode(); s.i=j+1; continue
            out+=c.encode(); s.i+=1
    def string(s):
        r=s.string1()
        while True:
            m=re.match(r'[ ]*(\\\n\s*)?(?=["\'])',s.t[s.i:])
            if not m: return r
            s.i+=m.end(); r+=s.string1()
    def string1(s):
        s.ws(); t=s.t; c=t[s.i]
        if c=="'": s.i+=1; return s.dq("'",interp=False)
        if c=='"': s.i+=1; return s.dq('"')
        m=re.match(r'%([qQ]?)([^\w\s])',t[s.i:])
        if m:
            s.i+=m.end(); o=m.group(2); cl=CLOSE.get(o,o)
            return s.dq(cl,o if o in CLOSE else None,m.group(1)!='q')
        m=re.match(r'<<([-~]?)(["\']?)(\w+)\2',t[s.i:])
        if m:
            # heredoc
            kind,q,name=m.groups()
            eol=t.index('\n',s.i)
            rest=t[s.i+m.end():eol]
            mm=re.compile(r'^[ \t]*'+name+r'$' if kind else r'^'+name+r'$',re.M).search(t,eol+1)
            body=t[eol+1:mm.start()]
            if kind=='~':
                ls=body.split('\n'); ind=min([len(l)-len(l.lstrip(' ')) for l in ls if l.strip()],default=0)
                body='\n'.join(l[ind:] if l.strip() else l[ind:] for l in ls)
            s.t=t[:s.i+m.end()]+t[s.i+m.end():eol]+t[mm.end():]
            # restitch
            s.i+=m.end()
            if q=="'": return body.encode()
            sub=P(body+'\0',0,s.env); return sub.dq('\0')
        raise Fail(f"string? {t[s.i:s.i+30]!r}")
    def value(s):
        v=s.value1()
        if s.at('...'): s.i+=3; return Rng(v,s.value1(),True)
        if s.at('..'): s.i+=2; return Rng(v,s.value1(),False)
        return v
    def value1(s):
        s.ws(); t=s.t
        rest=t[s.i:]
        m=re.match(r's\(',rest)
        if m:
            s.i+=2; l=[]
            while True:
                s.ws()
                if t[s.i]==')': s.i+=1; break
                l.append(s.value()); s.ws()
                t=s.t
                if t[s.i]==',': s.i+=1
            r=S(l)
            s_line=re.match(r'\.line\((\d+)\)',s.t[s.i:]) or re.match(r'\.line (\d+)',s.t[s.i:])
            if s_line: s.i+=s_line.end(); r.line=int(s_line.group(1))
            return r
        for kw,v in (('nil',None),('true',True),('false',False)):
            if re.match(kw+r'\b',rest): s.i+=len(kw); return v
        if re.match(r'bare_hash_type\b',rest): s.i+=14; return Sym('bare_hash')
        m=re.match(r'Complex\(0, ',rest)
        if m: s.i+=m.end(); v=s.value(); s.eat(')'); return Cplx(v)
        m=re.match(r'Rational\((\d+), (\d+)\)',rest)
        if m: s.i+=m.end(); return Rat(int(m.group(1)),int(m.group(2)))
        if re.match(r'Complex|Rational',rest): raise Fail("num")
        m=re.match(r'-?\d[\d_]*(\.\d+)?(e[-+]?\d+)?',rest)
        if m:
            s.i+=m.end(); x=m.group().replace('_','')
            return float(x) if ('.' in x or 'e' in x) else int(x)
        if rest[0]=='?' : s.i+=2; return Str(rest[1].encode())
        if rest.startswith(':"'): s.i+=2; return Sym(s.dq('"').decode('latin1'))
        if rest.startswith(":'"): s.i+=2; return Sym(s.dq("'",interp=False).decode('latin1'))
        m=re.match(r':(\[\]=?|[+\-!~]@|<=>|===?|=~|!~|!=|\*\*|<<|>>|<=|>=|\|\||&&|[+\-*/%<>&|^~!`]|\$?@?@?(?:[^\W]|_)\w*[?!=]?(?!>)|\$[^\w\s])',rest)
        if m:
            x=m.group(1)
            if x.endswith('=') and rest[m.end():m.end()+1]=='>' : x=x[:-1]; s.i-=1
            s.i+=m.end(); return Sym(x.encode().decode('latin1'))
        if rest[0]=='/' or rest.startswith('%r'):
            if rest[0]=='/': s.i+=1; c,o='/',None
            else: o=rest[2]; c=CLOSE.get(o,o); s.i+=3; o=o if o in CLOSE else None
            b=s.dq(c,o,True,True); op=0
            m=re.match(r'[imxounse]*',s.t[s.i:]); s.i+=m.end()
            for f in m.group(): op|={'i':1,'x':2,'m':4,'n':32,'u':16,'o':0,'s':16,'e':16}[f]
            return Rx(b,op)
        m=re.match(r'(\w+)\b(?!\()',rest)
        if m and m.group(1) in s.env:
            s.i+=m.end(); e=s.env[m.group(1)]
            if s.t.startswith('.to_sym',s.i): s.i+=7; return Sym(e)
            return e if not type(e) is str else Sym(e)
        return Str(s.string())
def cstr(b):
    if all(32<=c<127 for c in b): return '(s2l "%s")'%b.decode().replace('"','""')
    return '['+'; '.join(str(c) for c in b)+']%N'
def num(v):
    if isinstance(v,int):
        if -2**63<v<2**63: return f'(SInt ({v}))'
        return f'(SBig {cstr(str(v).encode())})'
    if isinstance(v,float): return '(SFloat false [])'
    if isinstance(v,Rat):
        return num(v.n) if v.d==1 else '(SFloat false [])'
def coq(v):
    if v is None: return 'SNil'
    if v is True: return 'STrue'
    if v is False: return 'SFalse'
    if isinstance(v,Sym): return f'(SSym {cstr(v.encode("latin1"))})'
    if isinstance(v,Str): return f'(SStr {cstr(v.b)})'
    if isinstance(v,(int,float)): return num(v)
    if isinstance(v,Cplx): return f'(SComplex {num(v.v)})'
    if isinstance(v,Rat): return f'(SRational {num(v)})'
    if isinstance(v,Rng):
        return f'(SRange ({v.a}) ({v.b}) {"true" if v.e else "false"})'
    if isinstance(v,Rx): return f'(SRegexp {cstr(v.b)} {v.o})'
    if isinstance(v,S):
        h=('(s [' if not (v.line and LINES) else f'(sl {v.line} [')+'; '.join(coq(x) for x in v.l)+'])'
        return h
    raise Fail(repr(v))
