#!/usr/bin/env python3
"""Writes the decoder contracts of the ISO-2022 encodings (Ok_isodec*.v)."""
import sys, os
OUT = os.path.join(os.path.dirname(__file__), '..', 'rocq', 'theories')

HEAD = '''(** Decoder contracts of %s. *)
(* Written by tools/genisodec.py. *)
From Coq Require Import ZArith List Bool Lia.
From Verif Require Import Base Loop Contract LoopLib Reflect Sx Rng EncLib DecLib DLeaf.
From Verif Require Import Conv_uni Conv_sb Conv_set_ja Conv_set_zh Conv_set_ko Conv_cjk Conv_iso2022 Encodings Unroll.
Import ListNotations.
Open Scope Z_scope.

'''

def pack(ps):
    n = len(ps)
    if n == 1: return ps[0]
    e = f'(Z.shiftl {ps[-1]} {8*(n-1)})'
    for j in range(n - 2, 0, -1):
        e = f'(Z.lor {e} (Z.shiftl {ps[j]} {8*j}))'
    return f'Z.lor {e} {ps[0]}'

def unpack(n, e):
    if n == 1: return [e]
    r = [f'(Z.land {e} 255)']
    for j in range(1, n - 1): r.append(f'(Z.land (Z.shiftr {e} {8*j}) 255)')
    r.append(f'(Z.shiftr {e} {8*(n-1)})')
    return r

def one(nm, maxes, extra, esc, wide):
    """nm: encoding; maxes: greatest value of each state part; extra: further condition; esc: first byte of sequences."""
    n = len(maxes)
    ps = ['st'] if n == 1 else [f's{j+1}' for j in range(n)]
    loop = f'{nm}_mbtowc_loop'
    short = nm.replace('iso2022_', '')
    vs = ' '.join(ps)
    rng = ' /\\ '.join(f'0 <= {p} <= {m}' for p, m in zip(ps, maxes)) + (f' /\\ {extra}' if extra else '')
    ex = ', '.join(ps)
    un = ' '.join(unpack(n, '(fst i)'))
    P = pack(ps)
    und = ' '.join(['_'] * n)
    o = ''
    o += f'''(** ** {short} *)
Definition {short}_ist (ist : Z) : Prop := exists {vs}, ist = {P} /\\ {rng}.
Lemma {short}_ist_0 : {short}_ist 0.
Proof. exists {', '.join(['0']*n)}. split; [reflexivity|lia]. Qed.
Definition {short}_dinv (i : Z * Z) : Prop := {short}_ist (fst i) /\\ snd i = 0.
Definition {short}_L (fuel : nat) (count : Z) (s : list Z) (i : Z * Z) :=
  {loop} fuel count {un} s (Z.to_nat count + length s) None (snd i).
'''
    hyps = ''.join(f'0 <= {p} <= {m} -> ' for p, m in zip(ps, maxes)) if n > 1 else ''
    o += f'''Lemma {short}_L_eq : forall fuel count s {vs} ibo, {hyps}{short}_L fuel count s ({P}, ibo) =
  {loop} fuel count {vs} s (Z.to_nat count + length s) None ibo.
Proof.
'''
    if n == 1: o += '  reflexivity.\nQed.\n'
    else:
        o += f'  intros fuel count s {vs} ibo' + ''.join(f' H{j}' for j in range(n)) + f'. unfold {short}_L. cbn [fst snd].\n'
        ps_unp = unpack(n, '(' + P + ')')
        for p, u in zip(ps, ps_unp):
            o += f'  replace {u} with {p} by unpack_.\n'
        o += '  reflexivity.\nQed.\n'
    o += f'''Lemma {short}_L_S : forall fuel count s {vs} ibo, {hyps}{short}_L (S fuel) count s ({P}, ibo) =
  ltac:(let T := type of ({loop}_S fuel count {vs} s (Z.to_nat count + length s) None ibo) in lazymatch T with _ = ?b => exact b end).
Proof. intros. rewrite {short}_L_eq by assumption. exact ({loop}_S fuel count {vs} s (Z.to_nat count + length s) None ibo). Qed.
Lemma {short}_mb : forall s n ist ibo, {nm}_mbtowc s n ist ibo = {loop} (8 + 4 * n) 0 {' '.join(unpack(n,'ist'))} s n None ibo.
Proof. reflexivity. Qed.
Lemma {short}_f_mb : f_mb enc_{nm} = {nm}_mbtowc.
Proof. reflexivity. Qed.
Lemma {short}_He : forall s i, f_mb enc_{nm} s (length s) (fst i) (snd i) = {short}_L (8 + 4 * length s) 0 s i.
Proof. intros s i. rewrite {short}_f_mb, {short}_mb. unfold {short}_L. change (Z.to_nat 0 + length s)%nat with (length s). reflexivity. Qed.
Ltac sx_stop m ::= lazymatch m with {loop} _ _ {und} _ _ _ _ => idtac | _ => fail end.
Ltac h_open ::= eapply holds_same; [apply {short}_L_S; lia|]; cbn [length].
Ltac h_unL H ::= rewrite {short}_L_eq in H by lia.
Ltac h_count m ::= lazymatch m with {loop} _ ?c {und} _ _ _ _ => c end.
Ltac h_state m ::= lazymatch m with {loop} _ _ {' '.join('?'+p for p in ps)} _ _ _ ?ibo => constr:(({P}, ibo)) end.
Ltac h_inv ::= solve [split; [cbn [fst]; eexists {', '.join(['_']*n)}; split; [reflexivity|lia]|reflexivity]].
Lemma dec_{nm}_ok : dec_ok enc_{nm} 1 {short}_dinv (fun _ => false) ucs4 /\\ dec_stable enc_{nm} {short}_dinv.
Proof.
  iso_prove {short}_L {short}_He {short}_ist {short}_ist_0; destruct A as ({' & '.join(ps)} & -> & A); iso_bytes {esc} {wide}.
  all: h_go.
Qed.

'''
    return o

def write(f, title, body):
    open(os.path.join(OUT, f), 'w').write(HEAD % title + body)

write('Ok_isodec1.v', 'ISO-2022-JP and ISO-2022-JP-1', one('iso2022_jp', [2], '', 27, 'w3') + one('iso2022_jp1', [3], '', 27, 'w4'))
write('Ok_isodec2.v', 'ISO-2022-JP-MS', one('iso2022_jpms', [4], '', 27, 'w4'))
write('Ok_isodec3.v', 'ISO-2022-KR and ISO-2022-CN', one('iso2022_kr', [1, 1], '(s1 = 1 -> s2 = 1)', 27, 'w4') + one('iso2022_cn', [1, 2, 1], '(s1 = 1 -> s2 <> 0)', 27, 'w4'))
write('Ok_isodec4.v', 'ISO-2022-CN-EXT', one('iso2022_cn_ext', [1, 3, 1, 5], '(s1 = 1 -> s2 <> 0)', 27, 'w4'))
write('Ok_isodec5.v', 'ISO-2022-JP-2', one('iso2022_jp2', [6, 2], '', 27, 'w4'))
HZ = r'''Lemma u32_id : forall x, 0 <= x < 0x100000000 -> u32 x = x.
Proof. intros x H. unfold u32. apply Z.mod_small. exact H. Qed.
Lemma s32_id : forall x, 0 <= x < 0x80000000 -> s32 x = x.
Proof. intros x H. unfold s32. rewrite u32_id by lia. cbv zeta. rewrite (proj2 (Z.ltb_lt _ _)) by lia. reflexivity. Qed.
Lemma s32_few : forall c, 0 <= c < 0x40000000 -> s32 (0xfffffffe - 2 * c) = -2 - 2 * c.
Proof. intros x H. unfold s32. rewrite u32_id by lia. cbv zeta. rewrite (proj2 (Z.ltb_ge _ _)) by lia. lia. Qed.
Lemma s32_ill : forall c, 0 <= c < 0x40000000 -> s32 (0xffffffff - 2 * c) = -1 - 2 * c.
Proof. intros x H. unfold s32. rewrite u32_id by lia. cbv zeta. rewrite (proj2 (Z.ltb_ge _ _)) by lia. lia. Qed.
(** The arithmetic of this decoder is unsigned. *)
Ltac hz_norm := cbv zeta; repeat match goal with |- context [u32 ?e] => rewrite (u32_id e) by lia end;
  repeat match goal with |- context [s32 (4294967294 - 2 * ?e)] => rewrite (s32_few e) by lia | |- context [s32 (4294967295 - 2 * ?e)] => rewrite (s32_ill e) by lia
  | |- context [s32 ?e] => rewrite (s32_id e) by lia end.

'''
write('Ok_isodec6.v', 'HZ', HZ + one('hz', [1], '', 126, 'w2').replace('cbn [length].\nLtac h_unL', 'cbn [length]; hz_norm.\nLtac h_unL'))
