#!/usr/bin/env python3
"""Generates rocq/theories/D_PSNames.v from the literal tables in /repo/pdfreader/types/constants.py and constants.py (parsed as text)."""
import ast
def table(f,n):
    for x in ast.walk(ast.parse(open(f).read())):
        if isinstance(x,ast.Assign) and getattr(x.targets[0],'id','')==n: return ast.literal_eval(x.value),x.lineno,x.end_lineno
o=['(** Generated by tools/gen_psnames.py: literal tables of pdfreader. *)','From Coq Require Import String.','From Verif Require Import Prelude.','Local Open Scope Z_scope.','Local Open Scope string_scope.','']
a,l1,l2=table('/repo/pdfreader/types/constants.py','PS_CHARNAMES')
o.append(f'(** types/constants.py {l1}-{l2} PS_CHARNAMES *)\nDefinition ps_charnames : list (list Z * list Z) :=\n  ['+';\n   '.join(f'(bs "{k}", [{"; ".join(str(ord(c)) for c in v)}])' for k,v in a.items())+'].\n')
a,l1,l2=table('/repo/pdfreader/constants.py','predefined_cmap_names')
o.append(f'(** constants.py {l1}-{l2} predefined_cmap_names: names and resource files *)\nDefinition predefined_cmaps : list (list Z * list Z) :=\n  ['+';\n   '.join(f'(bs "{k}", bs "{v}")' for k,v in a.items())+'].\n')
open('/verif/rocq/theories/D_PSNames.v','w').write('\n'.join(o))
