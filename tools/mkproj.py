import os
os.chdir('/verif/rocq')
m=open('_CoqProject').read().split('\n')
flags=[l for l in m if l and not l.endswith('.v')]
files=[]
for d in ['Model','Spec','Proofs','Properties']:
    p='theories/'+d
    if os.path.isdir(p):
        files+=sorted(p+'/'+f for f in os.listdir(p) if f.endswith('.v'))
open('_CoqProject','w').write('\n'.join(flags+files)+'\n')
