import re,sys,pickle
sys.path.insert(0,'/tmp/work')
from rubylit import *
T=open('/repo/test/test_ruby_parser.rb').read()
byname={};skipped=[]
for m in re.finditer(r'^  def (test_\w+[?!]?)(?: #[^\n]*)?\n(.*?)^  end\n',T,re.S|re.M):
    line=T.count('\n',0,m.start())+1
    if 5489<=line: continue
    byname[m.group(1)]=(line,m)
tests=[]
for name,(line,m) in byname.items():
    body=m.group(2)
    if re.search(r'^\s*skip\b',body,re.M): continue
    t=m.group(2); t=re.sub(r'#\s[^\n"\']*$','',t,flags=re.M) if False else t
    p=P(t); src=None; pt=None; n=0
    try:
        while True:
            mm=re.compile(r'\b(?:(rb|pt)\s*= |assert_parse(?:_ignoring_line_numbers_for_now)? rb, pt|(assert_syntax_error|assert_parse_error) rb)',re.M).search(p.t,p.i)
            if not mm: break
            p.i=mm.end()
            if mm.group(1)=='rb':
                src=p.string()
                if p.t[p.i:p.i+1]=='.' or p.t[p.i:p.i+2] in(' %',' *',' +'): raise Fail('method on rb '+p.t[p.i:p.i+20])
            elif mm.group(1)=='pt': pt=p.value()
            elif mm.group(2):
              if line!=3322: tests.append((line,src,None)); n+=1
            elif line in (3322,3534) and n==1: pass
            else:
                import rubylit
                rubylit.LINES='ignoring' not in mm.group(0)
                tests.append((line,src,coq(pt))); n+=1
        if n==0: raise Fail('no assert')
    except Exception as e: skipped.append((name,repr(e)))
for s_ in skipped: print(s_)
tests.sort(key=lambda t:t[0])
print(len(tests),len(skipped))
pickle.dump(tests,open('/tmp/work/tests2.pkl','wb'))
