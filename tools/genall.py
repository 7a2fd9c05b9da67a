#!/usr/bin/env python3
"""Collect the per-encoding contracts into one lookup by encoding index (AllOk.v)."""
import re, glob, os
T = os.path.join(os.path.dirname(__file__), '..', 'rocq', 'theories')
enc = open(T + '/Encodings.v').read()
lst = re.search(r'Definition all_encodings : list funcs := \[(.*?)\]\.', enc, re.S).group(1)
names = [x.strip()[4:] for x in lst.split(';')]
dec, wc, mods = {}, {}, []
for f in sorted(glob.glob(T + '/Ok_*.v')):
    t = open(f).read()
    m = os.path.basename(f)[:-2]
    u = False
    for x in re.findall(r'^(?:Lemma|Theorem) (\w+) : dec_ok enc_(\w+) ', t, re.M):
        dec[x[1]] = x[0]; u = True
    for x in re.findall(r'^(?:Lemma|Theorem) (\w+) : enc_ok enc_(\w+) ', t, re.M):
        wc[x[1]] = x[0]; u = True
    if u: mods.append(m)
bom = [i for i, n in enumerate(names) if n in ('ucs2', 'ucs4', 'utf16', 'utf32')]
nosrc = [i for i, n in enumerate(names) if n not in dec]
notgt = [i for i, n in enumerate(names) if n not in wc]
print('no source:', [names[i] for i in nosrc]); print('no target:', [names[i] for i in notgt])
o = '''(** The converter contracts of all encodings, by encoding index.
    Generated by tools/genall.py from the Ok_*.v files. *)
From Coq Require Import ZArith List Bool Lia.
From Verif Require Import Base Indexes Loop Contract Reflect Encodings.
From Verif Require Import %s.
Import ListNotations.
Open Scope Z_scope.

(** The encodings whose decoder remembers a byte order: UCS-2, UCS-4, UTF-16, UTF-32. *)
Definition bom_sources : list Z := [ei_ucs2; ei_ucs4; ei_utf16; ei_utf32].
Definition not_sources : list Z := [%s].
Definition not_targets : list Z := [%s].

Definition src_ok (i : nat) (f : funcs) : Prop :=
  exists inv pend, dec_ok f (Z.to_nat (ei_unit (Z.of_nat i))) inv pend ucs4 /\\ dec_stable f inv /\\
    (~ In (Z.of_nat i) bom_sources -> forall x, inv x -> snd x = 0).
Definition tgt_ok (f : funcs) : Prop := exists oinv, enc_ok f oinv ucs4.

Lemma src_intro : forall i f u inv pend, dec_ok f u inv pend ucs4 /\\ dec_stable f inv ->
  Z.to_nat (ei_unit (Z.of_nat i)) = u -> (~ In (Z.of_nat i) bom_sources -> forall x, inv x -> snd x = 0) -> src_ok i f.
Proof. intros i f u inv pend [A B] E H. exists inv, pend. rewrite E. auto. Qed.
Lemma tgt_intro : forall f oinv, enc_ok f oinv ucs4 -> tgt_ok f.
Proof. intros f oinv H. exists oinv. exact H. Qed.
Ltac src L := eapply src_intro; [exact L|vm_compute; reflexivity|intros _ x H; exact (proj2 H)].
Ltac bsrc L := eapply src_intro; [exact L|vm_compute; reflexivity|intros N; exfalso; apply N; vm_compute; tauto].

Definition all_P (P : nat -> funcs -> Prop) (k : nat) (l : list funcs) : Prop :=
  forall j f, nth_error l j = Some f -> P (k + j)%%nat f.
Lemma all_nil : forall P k, all_P P k [].
Proof. intros P k [|j] f H; discriminate. Qed.
Lemma all_cons : forall (P : nat -> funcs -> Prop) k f l, P k f -> all_P P (S k) l -> all_P P k (f :: l).
Proof.
  intros P k f l H H2 [|j] g E; cbn in E.
  - inversion E; subst. now rewrite Nat.add_0_r.
  - rewrite <- Nat.add_succ_comm. now apply H2.
Qed.

Lemma sources_ok : all_P (fun i f => ~ In (Z.of_nat i) not_sources -> src_ok i f) 0 all_encodings.
Proof.
  unfold all_encodings.
''' % (' '.join(mods), '; '.join('ei_' + names[i] for i in nosrc), '; '.join('ei_' + names[i] for i in notgt))
for i, n in enumerate(names):
    if i in nosrc: o += "  apply all_cons; [intros N; exfalso; apply N; vm_compute; tauto|].\n"
    else: o += "  apply all_cons; [intros _; %s %s|].\n" % ('bsrc' if i in bom else 'src', dec[n])
o += '''  apply all_nil.
Qed.

Lemma targets_ok : all_P (fun i f => ~ In (Z.of_nat i) not_targets -> tgt_ok f) 0 all_encodings.
Proof.
  unfold all_encodings.
'''
for i, n in enumerate(names):
    if i in notgt: o += "  apply all_cons; [intros N; exfalso; apply N; vm_compute; tauto|].\n"
    else: o += "  apply all_cons; [intros _; exact (tgt_intro _ _ %s)|].\n" % wc[n]
o += '''  apply all_nil.
Qed.
'''
open(T + '/AllOk.v', 'w').write(o)
