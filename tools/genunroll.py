#!/usr/bin/env python3
"""Write theories/Unroll.v: one unfolding equation per recursive block of the converters."""
import re,os
T=os.path.join(os.path.dirname(__file__),'..','rocq','theories')
out='''(** GENERATED by tools/genunroll.py; do not edit.
    Unfolding equations of the loops of the converters, used to step through them one round at a time. *)
From Coq Require Import ZArith List Bool.
From Verif Require Import Base Sx Conv_uni Conv_sb Conv_set_zh Conv_cjk Conv_iso2022.
Import ListNotations.
Open Scope Z_scope.


'''
names=[]
for f in ['Conv_uni','Conv_sb','Conv_set_zh','Conv_cjk','Conv_iso2022']:
    for m in re.finditer(r'^(Fixpoint|with) (\w+) (.*?) \{struct fuel\}',open(f'{T}/{f}.v').read(),re.M):
        n=m[2]; args=re.findall(r'\((\w+) : ([^()]*)\)',m[3])
        a=' '.join(x for x,_ in args[1:])
        names.append(n)
        bs=' '.join(f'({x} : {t})' for x,t in args)
        out+=f'Lemma {n}_S : forall {bs}, {n} (S fuel) {a} =\n  ltac:(let t := eval cbn [{n}] in ({n} (S fuel) {a}) in exact t).\nProof. reflexivity. Qed.\n'
out+='\nLtac sx_unroll m :=\n  let h := head_of m in\n  lazymatch h with\n'+''.join(f'  | {n} => eapply holds_same; [apply {n}_S|]\n' for n in names)+'  end.\n'
out+='Ltac sx_fix m ::= sx_unroll m.\n'
open(f'{T}/Unroll.v','w').write(out)
