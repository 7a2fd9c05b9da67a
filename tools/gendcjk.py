F=['cp932ext','big5','cp950ext','gb2312','gbk','gbkext1','gbkext2','hkscs1999','hkscs2001','hkscs2004','hkscs2008','isoir165ext','johab_hangul','uhc_1','uhc_2','cp936ext','gb18030_2005_ext','gb18030_2022_ext','jisx0208','jisx0212','ksc5601']+['cns11643_%d'%i for i in (1,2,3,4,5,6,7,15)]
old={'jisx0208','jisx0212','gb2312','ksc5601'}|{'cns11643_%d'%i for i in range(1,8)}
s=r'''(** What the two-byte charset functions shared by the multi-byte decoders can return, and how those decoders
    are stepped through with that knowledge. *)
From Coq Require Import ZArith List Bool Lia.
From Verif Require Import Base Loop Contract LoopLib Reflect Sx Rng EncLib DecLib TabLib SbLib.
From Verif Require Import TabIn_sb TabIn_cjk.
From Verif Require Import Conv_uni Conv_sb Conv_set_ja Conv_set_zh Conv_set_ko Conv_cjk Encodings DLeaf.
Import ListNotations.
Open Scope Z_scope.

Ltac sx_call m ::= lazymatch m with tget ?t ?i _ => tab_get t i end.
(** Decides the conditions inside index computations first. *)
Lemma geb_at : forall x k, k <= x -> (x >=? k) = true.
Proof. intros x k H. rewrite Z.geb_leb. now apply Z.leb_le. Qed.
Lemma geb_below : forall x k, x < k -> (x >=? k) = false.
Proof. intros x k H. rewrite Z.geb_leb. now apply Z.leb_gt. Qed.
Ltac split_if x k :=
  first [rewrite (geb_at x k) by lia | rewrite (geb_below x k) by lia
  |let H := fresh in assert (H : k <= x \/ x < k) by lia; destruct H as [H|H];
   [rewrite (geb_at x k H)|rewrite (geb_below x k H)]]; cbv iota.
Ltac split_ifs := repeat match goal with |- context [_ - (if ?x >=? ?k then _ else _)] => split_if x k end.
Lemma u32_id : forall e, 0 <= e < 0x100000000 -> u32 e = e.
Proof. intros e H. apply Z.mod_small. exact H. Qed.
Lemma u32_neg : forall e, -0x100000000 <= e < 0 -> u32 e = e + 0x100000000.
Proof. intros e H. unfold u32. rewrite <- (Z.mod_add e 1) by lia. apply Z.mod_small. lia. Qed.
Ltac u32_in t := match t with context [u32 ?e] => 
  first [rewrite (u32_id e) in * by lia | rewrite (u32_neg e) in * by lia] end.
Ltac idx_in i := first [u32_in i | match i with context [if ?x >=? ?k then _ else _] => split_if x k end].
Ltac sx_pre b ::= u32_in b.
Ltac sx_call m ::= lazymatch m with tget ?t ?i _ => first [tab_get t i | idx_in i] end.
Ltac dl_byi f := let a := fresh "a" in let b := fresh "b" in let A := fresh "A" in let B := fresh "B" in
  intros a b A B; apply dl_holds; unfold f, rd; cbn [nth_error]; split_ifs; sx; dl_end.
'''
for f in F:
    if f not in old:
        s+=f"Lemma dl_{f} : forall a b, 0 <= a < 256 -> 0 <= b < 256 -> dl_out 2 ({f}_mbtowc [a; b] 2).\nProof. dl_byi {f}_mbtowc. Qed.\n"
    s+=f"Lemma t2_{f} : forall a b tl k, {f}_mbtowc (a :: b :: tl) (S (S k)) = {f}_mbtowc [a; b] 2.\nProof. reflexivity. Qed.\n"
s+=r"""
Ltac dj_rng := first [lia | solve [byte_ifs]].
Ltac dj_call f T D l n :=
  let l' := eval cbv [lbuf lbuf_ lfind Nat.sub Nat.eqb wr skipn] in l in
  lazymatch l' with
  | ?a :: ?b :: ?tl =>
    first
    [ match goal with E : f [a; b] 2%nat = _ |- _ => eapply holds_same; [exact (T a b tl _)|]; dl_use E end
    | let E := fresh "E" in let W := fresh "W" in let R := fresh "R" in
      destruct (D a b ltac:(dj_rng) ltac:(dj_rng)) as [E|(W & R & E)];
      (eapply holds_same; [exact (T a b tl _)|]; dl_use E) ]
  end.
Ltac djk_call m :=
  lazymatch m with
  | tget ?t ?i _ => first [tab_get t i | idx_in i]
  | oget (oset _ (Some _)) _ => apply holds_oget; cbv beta
"""
for f in F:
    s+=f"  | {f}_mbtowc ?l ?n => dj_call {f}_mbtowc t2_{f} dl_{f} l n\n"
s+="  end.\n"
import os
open(os.path.join(os.path.dirname(os.path.abspath(__file__)),'..','rocq','theories','DCjk.v'),'w').write(s)
