#!/usr/bin/env python3
"""Write Prop<X>.v from <X>Stmt.v: every lemma C??_*_stmt becomes the theorem
C??_* with the same statement closed by `exact`, followed by Print Assumptions;
every lemma C??_*ex becomes an Example.  Usage: genprops.py Field Scalar ..."""
import json, os, re, sys
root = os.path.dirname(os.path.dirname(os.path.abspath(__file__)))
th = os.path.join(root, 'rocq', 'theories')
titles = {}
for l in open(os.path.join(root, 'properties.jsonl')):
    d = json.loads(l); titles[d['id']] = d['title']
for x in sys.argv[1:]:
    src = open(os.path.join(th, x + 'Stmt.v')).read()
    hdr = src[src.index('From Coq'):]
    imports = re.match(r'((?:From [^.]*?\.\s|Import [^.]*\.\s|Open Scope [^.]*\.\s)+)', hdr, re.S).group(1)
    imports = imports.rstrip()
    out = ['(** * Properties proved in %sStmt.v, restated (written by tools/genprops.py) *)\n' % x, imports]
    out.append('From Verif Require Import %sStmt.' % x)
    cur = None
    pat = re.compile(r'((?:\(\*\*(?:(?!\*\)).)*\*\)\n)?)Lemma (C\d+\w*?)(_stmt|_ex) :(.*?)\nProof', re.S)
    for m in pat.finditer(src):
        doc, name, kind, st = m.groups()
        pid = re.match(r"C\d+", name).group(0)
        if pid != cur:
            cur = pid
            out.append('\n(** ** %s: %s *)' % (pid, titles[pid].replace('*)', '* )')))
        if doc.startswith('(** ** '): doc = ''
        st = st.rstrip()
        if kind == '_stmt':
            out.append('\n%sTheorem %s :%s\nProof. exact %s_stmt. Qed.\nPrint Assumptions %s.' % (doc, name, st, name, name))
        else:
            out.append('\n%sExample %s_nonvacuous :%s\nProof. exact %s_ex. Qed.' % (doc, name, st, name))
    open(os.path.join(th, 'Prop%s.v' % x), 'w').write('\n'.join(out) + '\n')
    print(x, sum(1 for o in out if 'Theorem' in o), 'theorems')
