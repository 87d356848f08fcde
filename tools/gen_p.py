#!/usr/bin/env python3
"""Generate theories/P_<X>.v from theories/<X>Pf.v: every lemma named C<nn>..._pf becomes
Theorem C<nn>... with the same statement, closed by `exact`, with Print Assumptions."""
import re,glob,os
root=os.path.join(os.path.dirname(os.path.abspath(__file__)),'..','rocq','theories')
for f in sorted(glob.glob(os.path.join(root,'*Pf.v'))):
    s=open(f).read()
    x=os.path.basename(f)[:-4]
    req=re.findall(r'^From .*? Require Import [^.]*\.(?:\n|$)|^(?:Local )?Open Scope .*\.\n',s,re.M)
    out=["(** P_%s.v -- property theorems (generated by tools/gen_p.py from %sPf.v).\n    Each statement is repeated in full and closed by [exact]. *)\n"%(x,x)]
    out+=req
    out.append("From Verif Require Import %sPf.\n"%x)
    for m in re.finditer(r'((?:\(\*\*(?:(?!\*\)).)*\*\)\s*)?)^Lemma (C\d\d\w*)_pf\b(.*?)\nProof\b',s,re.S|re.M):
        out.append("\n%sTheorem %s%s\nProof. exact %s_pf. Qed.\nPrint Assumptions %s.\n"%(m.group(1),m.group(2),m.group(3),m.group(2),m.group(2)))
    open(os.path.join(root,'P_%s.v'%x),'w').write(''.join(out))
