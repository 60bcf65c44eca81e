#!/usr/bin/env python3
"""Generate XProps.v from XTheory.v: every `Lemma Cnn_foo_pf : stmt. Proof.` becomes
`Theorem Cnn_foo : stmt. Proof. exact Cnn_foo_pf. Qed. Print Assumptions Cnn_foo.`
Examples standing after a lemma in the theory file are named in a comment.
usage: gen_props.py theories/XTheory.v ..."""
import re, sys
for path in sys.argv[1:]:
    src = open(path).read()
    mod = re.search(r'(\w+)Theory\.v$', path).group(1)
    imports = []
    for m in re.finditer(r'^(From .*?\.|Require .*?\.|Import .*?\.|Open Scope .*?\.|Local Open Scope .*?\.)\s*$', src, re.M):
        if m.start() > src.find('_pf :') > 0: break
        imports.append(m.group(1))
    # multi-line From ... Require Import
    head = src[:min([i for i in [src.find('\nLemma'), src.find('\nDefinition'), src.find('\nExample'), src.find('\nLtac'), src.find('\nRecord'), src.find('\nTheorem'), src.find('\nFixpoint'), src.find('\nInductive'), src.find('\nArguments'),src.find('\nLocal Ltac')] if i > 0])]
    imports = re.findall(r'^(?:From\s[^"]*?\.|Require\s[^"]*?\.|Import\s[^"]*?\.|(?:Local )?Open Scope \w+\.)(?=\s*$)', re.sub(r'\(\*.*?\*\)', '', head, flags=re.S), re.M)
    out = ["(** Property theorems; proofs in %sTheory.v, where the examples that meet the\n    hypotheses stand beside each lemma. Generated by tools/gen_props.py. *)" % mod]
    out += imports
    if ('From Verif Require Import %sTheory.' % mod) not in out:
        out.append('From Verif Require Import %sTheory.' % mod)
    # keep scopes last
    sc = [l for l in out if 'Open Scope' in l]; out = [l for l in out if 'Open Scope' not in l] + sc
    out.append('')
    ms = list(re.finditer(r'((?:\(\*\*(?:(?!\*\)).)*?\*\)\s*)?)Lemma (C\d\d\w*?)_pf\b(.*?)\.\s*\nProof\.', src, re.S))
    for i, m in enumerate(ms):
        com, name, stmt = m.group(1), m.group(2), m.group(3)
        end = ms[i+1].start() if i+1 < len(ms) else len(src)
        ex = re.findall(r'^Example (\w+)', src[m.end():end], re.M)
        if com: out.append(com.strip())
        out.append("Theorem %s%s.\nProof. exact %s_pf. Qed." % (name, stmt, name))
        if ex: out.append("(* examples meeting the hypotheses: %s *)" % ", ".join(ex))
        out.append("Print Assumptions %s.\n" % name)
    open(path.replace('Theory.v', 'Props.v'), 'w').write("\n".join(out))
    print(path, len(ms))
