#!/usr/bin/env python3
"""Generates rocq/theories/D_Glyphs.v from the literal tables in /repo/pdfreader/codecs (parsed as text, never imported)."""
import ast
R='/repo/pdfreader/codecs/'
def tables(f):
    t=ast.parse(open(R+f).read()); out={}
    for n in ast.walk(t):
        if isinstance(n,ast.Assign) and isinstance(n.value,ast.Dict):
            out[n.targets[0].id]=(ast.literal_eval(n.value),n.lineno,n.end_lineno)
    return out
def zs(s): return '['+'; '.join(str(ord(c)) for c in s)+']'
o=['(** Generated by tools/gen_glyphs.py: the literal tables of pdfreader/codecs. *)','From Coq Require Import String.','From Verif Require Import Prelude.','Local Open Scope Z_scope.','Local Open Scope string_scope.','']
def emit(name,cite,rows,ty):
    o.append(f'(** {cite} *)'); o.append(f'Definition {name} : {ty} :=\n  [' + ';\n   '.join(rows)+'].\n')
a,l1,l2=tables('agl.py')['AGL']
emit('agl',f'codecs/agl.py {l1}-{l2} AGL',[f'(bs "{k}", {zs(v)})' for k,v in a.items()],'list (list Z * list Z)')
a,l1,l2=tables('zapfdingbatsgl.py')['ZAPFDINGBATS_GL']
emit('zapf',f'codecs/zapfdingbatsgl.py {l1}-{l2} ZAPFDINGBATS_GL',[f'(bs "{k}", {zs(v)})' for k,v in a.items()],'list (list Z * list Z)')
for f,n in [('winansi','winansi'),('standard','standard'),('macroman','macroman'),('pdfdoc','pdfdoc')]:
    t=tables(f+'.py')
    e,l1,l2=t['encode_table']
    assert all(len(k)==1 and len(v)==1 for k,v in e.items())
    emit(n+'_encode',f'codecs/{f}.py {l1}-{l2} encode_table: characters to bytes',['; '.join(f'({ord(k)}, {v[0]})' for k,v in list(e.items())[i:i+8]) for i in range(0,len(e),8)],'list (Z * Z)')
    d,l1,l2=t['decode_table']
    emit(n+'_decode',f'codecs/{f}.py {l1}-{l2} decode_table: bytes to glyph names',['; '.join(f'({k}, bs "{v}")' for k,v in list(d.items())[i:i+5]) for i in range(0,len(d),5)],'list (Z * list Z)')
open('/verif/rocq/theories/D_Glyphs.v','w').write('\n'.join(o))
