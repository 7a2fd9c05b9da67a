(** Encoder contracts of the BIG5-HKSCS encodings. *)
From Coq Require Import ZArith List Bool Lia.
From Verif Require Import Base Loop Contract LoopLib Reflect Sx Rng EncLib DecLib TabLib SbLib.
From Verif Require Import TabIn_sb TabIn_cjk.
From Verif Require Import Conv_uni Conv_sb Conv_set_ja Conv_set_zh Conv_set_ko Conv_cjk Encodings Leaf DLeaf DCjk CjkLib.
Import ListNotations.
Open Scope Z_scope.

(** The two letters a combining mark may follow. *)
Lemma hk_cases : forall wc, ucs4 wc -> wc = 0xca \/ wc = 0xea \/ Z.land wc 0xffffffdf <> 0xca.
Proof.
  intros wc U. destruct (Z.eq_dec (Z.land wc 0xffffffdf) 0xca) as [E|N]; [|auto].
  assert (D : wc = Z.lor (Z.land wc 0xffffffdf) (Z.land wc 0x20)).
  { apply Z.bits_inj'. intros n Hn. rewrite Z.lor_spec, !Z.land_spec.
    destruct (Z.lt_ge_cases n 32) as [L|L].
    - assert (A : n = 5 \/ n <> 5) by lia. destruct A as [->|A].
      + change (Z.testbit 4294967263 5) with false. change (Z.testbit 32 5) with true. destruct (Z.testbit wc 5); reflexivity.
      + assert (B : Z.testbit 4294967263 n = true).
        { assert (C : forallb (fun k => Z.testbit 4294967263 (Z.of_nat k) || Nat.eqb k 5) (seq 0 32) = true) by reflexivity.
          rewrite forallb_forall in C. specialize (C (Z.to_nat n)). rewrite Z2Nat.id in C by lia.
          specialize (C ltac:(apply in_seq; lia)). apply orb_true_iff in C. destruct C as [C|C]; [exact C|]. apply Nat.eqb_eq in C. lia. }
        rewrite B, andb_true_r. destruct (Z.testbit wc n); reflexivity.
    - rewrite (Z.bits_above_log2 wc n); [reflexivity|unfold ucs4 in U; lia|].
      unfold ucs4 in U. destruct (Z.eq_dec wc 0) as [->|Z0]; [simpl; lia|]. apply Z.log2_lt_pow2; [lia|].
      apply Z.lt_le_trans with (2 ^ 32); [lia|apply Z.pow_le_mono_r; lia]. }
  assert (F : Z.land wc 0x20 = 0 \/ Z.land wc 0x20 = 0x20).
  { destruct (Z.testbit wc 5) eqn:T; [right|left]; apply Z.bits_inj'; intros n Hn; rewrite Z.land_spec;
      (destruct (Z.eq_dec n 5) as [->|A]; [rewrite T; reflexivity|]);
      (assert (B : Z.testbit 32 n = false) by (change 32 with (2 ^ 5); rewrite Z.pow2_bits_eqb by lia; apply Z.eqb_neq; lia));
      rewrite B, andb_false_r; rewrite ?Z.bits_0; auto. }
  rewrite E in D. destruct F as [F|F]; rewrite F in D; [left|right; left]; exact D.
Qed.

Ltac closedZ x := let v := eval vm_compute in x in lazymatch v with Z0 => idtac | Zpos _ => idtac | Zneg _ => idtac end.
Ltac hk_run m := let m' := eval vm_compute in m in apply (holds_of _ _ m _ _ (eq_refl m')); cbv beta iota.
Ltac hk_call m L wc := first [closedZ wc; hk_run m | match goal with H : Z.land wc 0xffffffdf <> 0xca |- _ => idtac end; leaf2 L wc
  | let E := fresh "W" in destruct (hk_cases wc ltac:(assumption)) as [E|[E|E]]; [subst wc|subst wc|]].
Ltac sx_call m ::=
  lazymatch m with
  | big5_wctomb ?wc _ => hk_call m leaf_big5 wc
  | hkscs1999_wctomb ?wc _ => hk_call m leaf_hkscs1999 wc
  | hkscs2001_wctomb ?wc _ => leaf2 leaf_hkscs2001 wc
  | hkscs2004_wctomb ?wc _ => leaf2 leaf_hkscs2004 wc
  | hkscs2008_wctomb ?wc _ => leaf2 leaf_hkscs2008 wc
  | _ => fail
  end.
Definition hkscs_osts : list Z := [0; 0x66; 0xa7].

Ltac e_open ::= change (f_wc enc_big5hkscs1999) with big5hkscs1999_wctomb.
Lemma enc_big5hkscs1999_ok : enc_ok enc_big5hkscs1999 (fun ost => mem hkscs_osts ost = true) ucs4.
Proof.
  unfold hkscs_osts. enc_go. Qed.
Ltac e_open ::= change (f_wc enc_big5hkscs2001) with big5hkscs2001_wctomb.
Lemma enc_big5hkscs2001_ok : enc_ok enc_big5hkscs2001 (fun ost => mem hkscs_osts ost = true) ucs4.
Proof. unfold hkscs_osts. enc_go. Qed.
Ltac e_open ::= change (f_wc enc_big5hkscs2004) with big5hkscs2004_wctomb.
Lemma enc_big5hkscs2004_ok : enc_ok enc_big5hkscs2004 (fun ost => mem hkscs_osts ost = true) ucs4.
Proof. unfold hkscs_osts. enc_go. Qed.
Ltac e_open ::= change (f_wc enc_big5hkscs2008) with big5hkscs2008_wctomb.
Lemma enc_big5hkscs2008_ok : enc_ok enc_big5hkscs2008 (fun ost => mem hkscs_osts ost = true) ucs4.
Proof. unfold hkscs_osts. enc_go. Qed.
