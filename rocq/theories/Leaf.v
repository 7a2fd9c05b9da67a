(** What the charset functions shared by the stateful encoders can return. *)
From Coq Require Import ZArith List Bool Lia.
From Verif Require Import Base Loop Contract LoopLib Reflect Sx EncLib DecLib TabLib SbLib.
From Verif Require Import TabIn_sb TabIn_cjk Tab_cnsinv Tab_jis Tab_gb Tab_ks Tab_big5.
From Verif Require Import Conv_uni Conv_sb Conv_set_ja Conv_set_zh Conv_set_ko Conv_cjk Conv_iso2022.
Import ListNotations.
Open Scope Z_scope.

Lemma hold_leaf : forall k ok m, leaf_ok k ok m = true -> holds m (fun x => leaf_ok k ok (Ok x) = true).
Proof. intros k ok [x| | |] H; [exact H|discriminate H..]. Qed.
Lemma inr_weak : forall lo hi lo' hi' l, lo' <= lo -> hi <= hi' -> inr lo hi l = true -> inr lo' hi' l = true.
Proof.
  intros lo hi lo' hi' l A B. unfold inr. rewrite !forallb_forall. intros H x I. specialize (H x I).
  rewrite andb_true_iff, !Z.leb_le in *. lia.
Qed.
Lemma leaf_weak : forall k lo hi lo' hi' m, lo' <= lo -> hi <= hi' -> leaf_ok k (inr lo hi) m = true -> leaf_ok k (inr lo' hi') m = true.
Proof.
  intros k lo hi lo' hi' m A B H. destruct m as [[c l]| | |]; try discriminate H. unfold leaf_ok in *. destruct (c =? -1); [exact H|].
  apply andb_true_iff in H. destruct H as [H K]. rewrite H. cbv zeta in *. cbn [andb].
  pose proof (inr_weak lo hi lo' hi' (log_bytes l 0 k) A B) as W.
  repeat match type of K with (match ?x with _ => _ end) = true => destruct x; try discriminate K end; auto.
Qed.

(** A lookup in a Summary16 table followed by the charset table. *)
Ltac std_use C T i :=
  let cs := cs_of C in let si := si_of T in
  apply hold_leaf; eapply leaf_weak; cycle 2;
  [ exact (std_j_ok C _ _ T _ i _ cs si ltac:(sx_arith)) | lia | lia ].
Ltac tab_ti t ::= match constr:(tt) with _ => TabIn_cjk.ti_of t | _ => TabIn_sb.ti_of t end.
Ltac sx_call m ::=
  lazymatch m with
  | tget ?t ?i _ => tab_get t i
  | jisx0208_wctomb_j (Some (?T, ?i)) _ _ => std_use jisx0208_2charset T i
  | jisx0212_wctomb_j (Some (?T, ?i)) _ _ => std_use jisx0212_2charset T i
  | gb2312_wctomb_j (Some (?T, ?i)) _ _ => std_use gb2312_2charset T i
  | isoir165ext_wctomb_j (Some (?T, ?i)) _ _ => std_use isoir165ext_2charset T i
  | ksc5601_wctomb_j (Some (?T, ?i)) _ _ => std_use ksc5601_2charset T i
  end.
Ltac leaf_by := intros wc U; unfold ucs4 in U; apply leaf_holds; sx; try leaf_end.

Lemma leaf_jisx0201 : forall wc, ucs4 wc -> leaf_ok 1 (inr 0 255) (jisx0201_wctomb wc 1) = true.
Proof. leaf_by. Qed.
Lemma leaf_jisx0208 : forall wc, ucs4 wc -> leaf_ok 2 (inr 0x21 0x7e) (jisx0208_wctomb wc 2) = true.
Proof. leaf_by. Qed.
Lemma leaf_jisx0212 : forall wc, ucs4 wc -> leaf_ok 2 (inr 0x21 0x7e) (jisx0212_wctomb wc 2) = true.
Proof. leaf_by. Qed.
Lemma leaf_gb2312 : forall wc, ucs4 wc -> leaf_ok 2 (inr 0x21 0x7e) (gb2312_wctomb wc 2) = true.
Proof. leaf_by. Qed.
Lemma leaf_ksc5601 : forall wc, ucs4 wc -> leaf_ok 2 (inr 0x21 0x7e) (ksc5601_wctomb wc 2) = true.
Proof. leaf_by. Qed.
Lemma leaf_isoir165ext : forall wc, ucs4 wc -> leaf_ok 2 (inr 0x21 0x7e) (isoir165ext_wctomb wc 2) = true.
Proof. leaf_by. Qed.
Lemma leaf_cp50221_0208_ext : forall wc, ucs4 wc -> leaf_ok 1 (inr 1 0x7e) (cp50221_0208_ext_wctomb wc 1) = true.
Proof. leaf_by. Qed.
Lemma leaf_cp50221_0212_ext : forall wc, ucs4 wc -> leaf_ok 1 (inr 1 0xff) (cp50221_0212_ext_wctomb wc 1) = true.
Proof. leaf_by. Qed.
Lemma leaf_iso8859_1 : forall wc, ucs4 wc -> leaf_ok 1 (inr 0 0xff) (iso8859_1_wctomb wc 1) = true.
Proof. leaf_by. Qed.
Lemma leaf_iso8859_7 : forall wc, ucs4 wc -> leaf_ok 1 (inr 0 0xff) (iso8859_7_wctomb wc 1) = true.
Proof. leaf_by. Qed.

(** The three bytes of an entry of the inverse CNS 11643 table: plane, row, column. *)
Definition cns_ok (bs : list Z) : bool := inr 1 15 (firstn 1 bs) && inr 0x21 0x7e (skipn 1 bs).
Definition cns_chk (u : Z) : bool :=
  match tlookup cns11643_inv_2charset (3 * u), tlookup cns11643_inv_2charset (3 * u + 1), tlookup cns11643_inv_2charset (3 * u + 2) with
  | Some a, Some b, Some c => cns_ok [a; b; c]
  | _, _, _ => false
  end.
Lemma cns_all : zall 16 55442 cns_chk = true.
Proof. vm_cast_no_check (eq_refl true). Qed.
Lemma cns_j_ok : forall T N i wc, sumin T N 55442 -> 0 <= i < N -> leaf_ok 3 cns_ok (cns11643_inv_wctomb_j (Some (T, i)) wc []) = true.
Proof.
  intros T N i wc HS Hi. destruct (HS i Hi) as (indx & used & E1 & E2 & A1 & A2 & A3).
  unfold cns11643_inv_wctomb_j. cbn [isnull negb sget]. unfold tget at 1. rewrite E2. cbv zeta.
  destruct (Z.eqb_spec (Z.land used (Z.shiftl 1 (Z.land wc 15))) 0) as [Z0|NZ]; cbn [negb]; [reflexivity|].
  pose proof (pop_lt used (Z.land wc 15) A2 (low4 wc) NZ) as P. unfold tget at 1. rewrite Z.add_0_r, E1.
  set (u := pop16 (Z.land used (Z.shiftl 1 (Z.land wc 15) - 1))) in *.
  pose proof (zall_sound _ _ _ cns_all ltac:(vm_compute; discriminate) (u + indx) ltac:(lia)) as K. unfold cns_chk in K.
  match goal with |- context [u16 (?x + indx)] => change x with u end.
  replace (u16 (u + indx)) with (u + indx) by (unfold u16; rewrite Z.mod_small; lia).
  unfold tget.
  destruct (tlookup cns11643_inv_2charset (3 * (u + indx))) as [a|]; [|discriminate K].
  destruct (tlookup cns11643_inv_2charset (3 * (u + indx) + 1)) as [b|]; [|discriminate K].
  destruct (tlookup cns11643_inv_2charset (3 * (u + indx) + 2)) as [c|]; [|discriminate K].
  unfold leaf_ok, wr. cbn [log_bytes lfind Nat.eqb Nat.add Z.eqb Pos.eqb Z.of_nat Pos.of_succ_nat Pos.succ andb]. exact K.
Qed.
Ltac cns_use T i := let si := si_of T in apply hold_leaf; exact (cns_j_ok T _ i _ si ltac:(sx_arith)).
Ltac sx_call m ::=
  lazymatch m with
  | cns11643_inv_wctomb_j (Some (?T, ?i)) _ _ => cns_use T i
  end.
Lemma leaf_cns11643 : forall wc, ucs4 wc ->
  leaf_ok 3 (fun bs => inr 1 15 (firstn 1 bs) && inr 0x21 0x7e (skipn 1 bs)) (cns11643_inv_wctomb wc 3) = true.
Proof. change (forall wc, ucs4 wc -> leaf_ok 3 cns_ok (cns11643_inv_wctomb wc 3) = true). leaf_by. Qed.

Lemma inr1 : forall lo hi a, inr lo hi [a] = true -> lo <= a <= hi.
Proof. intros lo hi a H. cbn in H. rewrite !andb_true_iff, !Z.leb_le in H. tauto. Qed.
Lemma inr2 : forall lo hi a b, inr lo hi [a; b] = true -> lo <= a <= hi /\ lo <= b <= hi.
Proof. intros lo hi a b H. cbn in H. rewrite !andb_true_iff, !Z.leb_le in H. tauto. Qed.

Ltac leaf1 L wc :=
  let E := fresh "E" in let R := fresh "R" in let a := fresh "a" in
  destruct (leaf_ok_sound _ _ _ (L wc ltac:(assumption))) as [E|(a & R & E)]; [|apply inr1 in R];
  apply (holds_of _ _ _ _ _ E); cbv beta iota.
Ltac leaf2 L wc :=
  let E := fresh "E" in let R := fresh "R" in let a := fresh "a" in let b := fresh "b" in
  destruct (leaf_ok_sound _ _ _ (L wc ltac:(assumption))) as [E|(a & b & R & E)]; [|apply inr2 in R; destruct R];
  apply (holds_of _ _ _ _ _ E); cbv beta iota.
Ltac leaf3 L wc :=
  let E := fresh "E" in let R := fresh "R" in let a := fresh "a" in let b := fresh "b" in let c := fresh "c" in let R' := fresh "R" in
  destruct (leaf_ok_sound _ _ _ (L wc ltac:(assumption))) as [E|(a & b & c & R & E)];
  [|apply andb_true_iff in R; destruct R as [R R']; cbn [firstn skipn] in R, R'; apply inr1 in R; apply inr2 in R'; destruct R'];
  apply (holds_of _ _ _ _ _ E); cbv beta iota.

Lemma leaf_iso646_cn : forall wc, ucs4 wc -> leaf_ok 1 (inr 0 0x7f) (iso646_cn_wctomb wc 1) = true.
Proof. leaf_by. Qed.
Ltac sx_call m ::=
  lazymatch m with
  | gb2312_wctomb ?wc _ => leaf2 leaf_gb2312 wc
  | isoir165ext_wctomb ?wc _ => leaf2 leaf_isoir165ext wc
  | iso646_cn_wctomb ?wc _ => leaf1 leaf_iso646_cn wc
  end.
Lemma leaf_isoir165 : forall wc, ucs4 wc -> leaf_ok 2 (inr 0x21 0x7e) (isoir165_wctomb wc 2) = true.
Proof. intros wc U; apply leaf_holds; sx; cbv [lapp lshift map app Nat.add fst snd]; leaf_end. Qed.

Ltac sx_call m ::=
  lazymatch m with
  | jisx0201_wctomb ?wc _ => leaf1 leaf_jisx0201 wc
  | jisx0208_wctomb ?wc _ => leaf2 leaf_jisx0208 wc
  | jisx0212_wctomb ?wc _ => leaf2 leaf_jisx0212 wc
  | gb2312_wctomb ?wc _ => leaf2 leaf_gb2312 wc
  | isoir165_wctomb ?wc _ => leaf2 leaf_isoir165 wc
  | ksc5601_wctomb ?wc _ => leaf2 leaf_ksc5601 wc
  | cp50221_0208_ext_wctomb ?wc _ => leaf1 leaf_cp50221_0208_ext wc
  | cp50221_0212_ext_wctomb ?wc _ => leaf1 leaf_cp50221_0212_ext wc
  | iso8859_1_wctomb ?wc _ => leaf1 leaf_iso8859_1 wc
  | iso8859_7_wctomb ?wc _ => leaf1 leaf_iso8859_7 wc
  | cns11643_inv_wctomb ?wc _ => leaf3 leaf_cns11643 wc
  | _ => fail
  end.
