import os,re
d='/verif/rocq/theories'
order=['Base']
fs=sorted(f[:-2] for f in os.listdir(d) if f.endswith('.v'))
open('/verif/rocq/_CoqProject','w').write('-Q theories Verif\n\n'+''.join(f'theories/{f}.v\n' for f in fs))
