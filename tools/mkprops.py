#!/usr/bin/env python3
"""Generate X_Props.v from X_Main.v: every Lemma/Example NAME_main of X_Main.v
is restated as Theorem/Example NAME, closed by [exact NAME_main], with the
comment that precedes it, followed by Print Assumptions for theorems."""
import re, sys
for x in sys.argv[1:]:
    src = open(f'/verif/rocq/theories/{x}_Main.v').read()
    head = re.search(r'\(\*IMPORTS\*\)(.*?)\(\*END\*\)', src, re.S).group(1).strip()
    out = [f'(** Property theorems; proofs in {x}_Main.v. *)', head,
           f'From Verif Require Import {x}_Main.', '']
    pat = re.compile(r'((?:\(\*\*(?:(?!\*\)).)*\*\)\s*)?)(Lemma|Example) (\w+)_main\b(.*?)\.\nProof\.', re.S)
    for m in pat.finditer(src):
        kw = 'Theorem' if m.group(2) == 'Lemma' else 'Example'
        n = m.group(3)
        out.append(f'{m.group(1)}{kw} {n}{m.group(4)}.\nProof. exact {n}_main. Qed.')
        if kw == 'Theorem':
            out.append(f'Print Assumptions {n}.')
        out.append('')
    open(f'/verif/rocq/theories/{x}_Props.v', 'w').write('\n'.join(out))
    print(x, len([o for o in out if o.startswith('Print')]))
