#!/usr/bin/env python3
"""Regenerates rocq/theories/Properties_X.v from rocq/theories/Proof_Props_X.v.

Every lemma of the source whose name is p_NAME becomes
    Theorem NAME : <same statement>. Proof. exact p_NAME. Qed. Print Assumptions NAME.
and every lemma named e_NAME becomes an Example NAME.  Comments directly in front of
such a lemma are copied.  Everything else (auxiliary lemmas, proofs) stays behind."""
import re, sys, glob, os
D = os.path.join(os.path.dirname(__file__), '..', 'rocq', 'theories')
for src in sorted(glob.glob(os.path.join(D, 'Proof_Props_*.v'))):
    name = os.path.basename(src)[len('Proof_Props_'):-2]
    s = open(src).read()
    out = ['(* Properties_%s.v - the property theorems and a concrete case beside each; proofs are in\n'
           '   Proof_Props_%s.v.  Generated by tools/mkthms.py. *)\n' % (name, name)]
    head = re.search(r'(From Coq Require Import String\.\n)?From Verif Require Import[^\n]*\n(Local Open Scope [^\n]*\n)*', s).group(0)
    out.append(head.replace('From Verif Require Import', 'From Verif Require Import Proof_Props_%s' % name) + '\n')
    for m in re.finditer(r'((?:\(\*(?:(?!\*\)).)*\*\)\n)*)Lemma ([pe])_(\w+)((?:(?!\nProof\.).)*)\nProof\.', s, re.S):
        com, kind, nm, stmt = m.groups()
        kw = 'Theorem' if kind == 'p' else 'Example'
        out.append('%s%s %s%s\nProof. exact %s. Qed.\n' % (com, kw, nm, stmt, '%s_%s' % (kind, nm)))
        if kind == 'p':
            out.append('Print Assumptions %s.\n' % nm)
        out.append('\n')
    t = ''.join(out).rstrip() + '\n'
    dst = os.path.join(D, 'Properties_%s.v' % name)
    if not os.path.exists(dst) or open(dst).read() != t:
        open(dst, 'w').write(t)
