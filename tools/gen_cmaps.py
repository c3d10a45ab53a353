"""Generates rocq/theories/D_CMaps.v: the bytes of /repo/pdfreader/codecs/cmaps/*."""
import os
src='/repo/pdfreader/codecs/cmaps'
out=['(** Generated by tools/gen_cmaps.py: the predefined CMap files of pdfreader/codecs/cmaps, byte for byte. *)',
'From Coq Require Import String.','From Verif Require Import Prelude.','Local Open Scope Z_scope.','']
names=[]
for n in sorted(os.listdir(src)):
    if n=='README.md': continue
    t=open(os.path.join(src,n),'rb').read()
    assert all(b==10 or 32<=b<127 for b in t), n
    ident='cmap_'+n.replace('-','_')
    names.append((n,ident))
    out.append('(** codecs/cmaps/%s *)'%n)
    out.append('Definition %s : list Z := bs "%s".'%(ident,t.decode().replace('"','""')))
out.append('Definition cmap_files : list (list Z * list Z) :=\n  ['+';\n   '.join('(bs "%s", %s)'%p for p in names)+'].')
open(os.path.join(os.path.dirname(os.path.abspath(__file__)),'../rocq/theories/D_CMaps.v'),'w').write('\n'.join(out)+'\n')
