#!/usr/bin/env python3
# Translate the fieldless enums of src/gtpv2/messages/ies and their From<u8>/Into<u8>
# conversions into rocq/theories/V2Enums.v.
import re,glob,os
R='/repo/src/gtpv2/messages/ies/'
def line(s,pos): return s.count('\n',0,pos)+1
def block(s,start):
    i=s.index('{',start);d=0
    for j in range(i,len(s)):
        if s[j]=='{':d+=1
        if s[j]=='}':
            d-=1
            if d==0: return i,j
def num(x):
    x=x.strip().replace('_','')
    return int(x,0)
out=[];names=[]
for f in sorted(glob.glob(R+'*.rs')):
    s=open(f).read(); base=os.path.basename(f)
    for m in re.finditer(r'pub enum (\w+) \{',s):
        n=m.group(1)
        i,j=block(s,m.start())
        body=re.sub(r'//.*','',s[i+1:j]); dm=re.search(r'#\[default\]\s*(\w+)',body); body=re.sub(r'\s*=\s*\d+','',body); body=re.sub(r'#\[\w+\]','',body)
        cons=[c.strip() for c in body.split(',') if c.strip()]
        if any(not re.fullmatch(r'\w+',c) for c in cons): continue
        mt=re.search(r'impl From<&?%s> for u8 \{'%n,s); mf=re.search(r'impl From<u8> for %s \{'%n,s)
        if not mt or not mf: print('skip',base,n); continue
        a,b=block(s,mt.start()); t=s[a:b]
        k=t.index('match'); x,y=block(t,k); arms=t[x+1:y]
        to=[]
        for arm in re.sub(r'//.*','',arms).split(','):
            arm=arm.strip()
            if not arm: continue
            l,r=arm.split('=>'); l=l.strip().lstrip('&')
            for alt in l.split('|'):
                c=alt.strip().split('::')[-1]; to.append((c,num(r)))
        a2,b2=block(s,mf.start()); t2=s[a2:b2]
        k=t2.index('match'); x,y=block(t2,k); arms=t2[x+1:y]
        fr=[];dflt=None
        for arm in re.sub(r'//.*','',arms).split(','):
            arm=arm.strip()
            if not arm: continue
            l,r=[q.strip() for q in arm.split('=>')]; c=r.split('::')[-1].strip(); c=dm.group(1) if c=='default()' else c
            if l=='_': dflt=c; continue
            for alt in l.split('|'):
                alt=alt.strip()
                if '..=' in alt:
                    lo,hi=alt.split('..='); fr.append(('(%d <=? n) && (n <=? %d)'%(num(lo),num(hi)),c))
                else: fr.append(('n =? %d'%num(alt),c))
        assert dflt, (base,n)
        P=lambda c:n+'_'+c
        o='(* %s %d-%d *)\nInductive %s :=\n| %s.\n'%(base,line(s,m.start()),line(s,j),n,' | '.join(P(c) for c in cons))
        o+='(* %s %d-%d *)\nDefinition %s_to (c : %s) : N :=\n  match c with\n'%(base,line(s,mt.start()),line(s,b),n,n)
        seen=[c for c,_ in to]
        if set(c for c in seen if c!='_')!=set(cons): print('to arms differ',base,n,set(cons)^set(seen))
        for c,v in to: o+='  | %s => %d\n'%(P(c) if c!='_' else '_',v)
        o+='  end.\n'
        o+='(* %s %d-%d *)\nDefinition %s_of (n : N) : %s :=\n'%(base,line(s,mf.start()),line(s,b2),n,n)
        for cnd,c in fr: o+='  if %s then %s else\n'%(cnd,P(c))
        o+='  %s.\n'%P(dflt)
        out.append(o);names.append(n)
open('/verif/rocq/theories/V2Enums.v','w').write('''(* V2Enums.v - the enumerations of src/gtpv2/messages/ies and their u8 conversions.
   Generated from the source by tools/mkenums.py. *)
From Coq Require Import NArith Bool.
Local Open Scope N_scope.

'''+'\n'.join(out))
print(names)
