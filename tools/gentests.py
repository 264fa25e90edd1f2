import re,sys
sys.path.insert(0,'/tmp/work')
from rubylit import *
T=open('/repo/test/parser_test.rb').read()
lines=T.split('\n')
# compute active lines
active=[True]*len(lines); stack=[]
for i,l in enumerate(lines):
    st=l.strip(); ind=len(l)-len(l.lstrip())
    if st=="if parser == 'NatalieParser'": stack.append([ind,True])
    elif stack and ind==stack[-1][0] and st=='else': stack[-1][1]=False
    elif stack and ind==stack[-1][0] and st=='end': stack.pop()
    elif any(not x[1] for x in stack): active[i]=False
offs=[];o=0
for l in lines: offs.append(o); o+=len(l)+1
tests=[];skipped=[]
loop=None; words=None
vars_={}
i=0
for i,l in enumerate(lines):
    if not active[i] or i<37: continue
    st=l.strip()
    if st.startswith('#'): continue
    m=re.search(r'%[iw]\[([^\n]*)\](\.each|$)',st) 
    if m and 'expect' not in st: words=m.group(1).split()
    if re.search(r'\boperators = ',st): words=st[st.index('[')+1:st.rindex(']')].split()
    m=re.match(r'(keywords = )?%[iw]\[$',st)
    if m: words=[]; collecting=True; continue
    if words is not None and st and re.fullmatch(r'\w+',st) and st!='end' or (words is not None and st=='end' and lines[i+1].strip() in('end','ensure')): 
        words.append(st); continue
    m=re.search(r'each do \|(\w+)\|$',st)
    if m: loop=(m.group(1),words); 
    if st=='end' and loop: loop=None; words=None
    m=re.match(r'(\w+) = (?=parse\()',st)
    if re.match(r'(doc\d*) = <<',st):
        try:
            p=P(T,offs[i]+l.index('=')+1); vars_[st.split()[0]]=p.string()
        except Exception as e: pass
        continue
    envs=[{}]
    if loop and re.search(r'#\{'+loop[0]+r'\}|\b'+loop[0]+r'\b',st): envs=[{loop[0]:w} for w in (loop[1] or [])]
    for env in envs:
        try:
            m=re.match(r'expect\(parse\(',st)
            if m:
                mm=re.match(r'expect\(parse\((\w+)\)\)\.must_equal ',st)
                if mm and mm.group(1) in vars_:
                    src=vars_[mm.group(1)]; p=P(T,offs[i]+l.index('must_equal')+10,env)
                else:
                    p=P(T,offs[i]+l.index('expect')+len(m.group()),env); src=p.string(); p.eat('))')
                    if p.at('.must_equal_and_be_same_class'): p.eat('.must_equal_and_be_same_class')
                    elif p.at('.must_equal'): p.eat('.must_equal')
                    else: raise Fail('other form')
                tests.append((i+1,src,coq(p.value()))); continue
            m=re.match(r'expect\(-> \{ parse\(',st)
            if m:
                p=P(T,offs[i]+l.index('expect')+len(m.group()),env); tests.append((i+1,p.string(),None)); continue
            m=re.match(r'expect_raise_with_message\(',st)
            if m:
                k=T.index('parse(',offs[i])+6
                p=P(T,k,env); tests.append((i+1,p.string(),None)); continue
            m=re.match(r'(\w+) = parse\((.*)\)$',st)
            if m:
                nm=re.match(r'expect\(\w+\)\.must_equal s',lines[i+1].strip())
                p=P(T,offs[i]+l.index('parse(')+6,env)
                if m.group(2) in vars_: src=vars_[m.group(2)]
                else: src=p.string()
                if nm:
                    p=P(T,offs[i+1]+lines[i+1].index('must_equal')+10,env); tests.append((i+1,src,coq(p.value())))
                continue
            if 'parse(' in st: raise Fail('form')
        except Fail as e: skipped.append((i+1,st,str(e)))
        except Exception as e: skipped.append((i+1,st,repr(e)))
for s_ in skipped: print(s_,file=sys.stderr)
print(len(tests),len(skipped),file=sys.stderr)
import pickle; pickle.dump(tests,open('/tmp/work/tests.pkl','wb'))
