#!/usr/bin/env python3
"""Writes the table of rocq/theories/Intrinsics.v: every call of an x86 intrinsic in /repo with the guard it stands under."""
import re
R='/repo/crates/'
FILES=['vsimd/src/simd128.rs','vsimd/src/simd256.rs','vsimd/src/unified.rs','uuid-simd/src/spec.rs']
arms={}
for f in FILES:
    fn=None; stack=[]
    for i,l in enumerate(open(R+f).read().split('\n'),1):
        s=l.strip(); ind=len(l)-len(l.lstrip())
        if s.startswith('//'): continue
        m=re.search(r'\bfn (\w+)',l)
        if m: fn=m.group(1)
        if s=='}' and stack and ind==stack[-1][0]: stack.pop()
        m=re.search(r'matches_isa!\(\w+, ([\w| ]+)\)',l)
        if m: stack.append((ind,['I'+x.strip() for x in m.group(1).split('|')],i))
        for m in re.finditer(r'\b_mm(?:256)?_\w+',l):
            assert stack,(f,i)
            k=(f,fn,stack[-1][2],tuple(stack[-1][1]))
            v=arms.setdefault(k,[])
            if m.group(0) not in v: v.append(m.group(0))
out=[]; last=None
for (f,fn,line,g),v in arms.items():
    if f!=last: out.append('   (* %s *)'%f); last=f
    out.append('   arm %d "%s" [%s] ["%s"]'%(line,fn,'; '.join(g),'"; "'.join(v)))
res=''
rows=[x for x in out if not x.startswith('   (*')]
seen=0
for x in out:
    if x.startswith('   (*'): res+=x+'\n'
    else:
        seen+=1; res+=x+(';' if seen<len(rows) else ';')+'\n'
print(res)
