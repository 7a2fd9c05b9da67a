(** Converter contracts (Contract.v) of GB18030: both decoders, and the encoder of the 2022 edition.

    The encoder of the 2005 edition has no contract: it writes four bytes where it has checked for two
    (C_iconv.v, C01_refuted). *)
From Coq Require Import ZArith List Bool Lia.
From Verif Require Import Base Loop Contract LoopLib Reflect Sx Rng EncLib DecLib TabLib SbLib Unroll.
From Verif Require Import TabIn_sb TabIn_cjk.
From Verif Require Import Tab_gb Conv_uni Conv_sb Conv_set_ja Conv_set_zh Conv_set_ko Conv_cjk Encodings Leaf DLeaf DCjk CjkLib.
Import ListNotations.
Open Scope Z_scope.

Ltac tab_ti t ::= match constr:(tt) with _ => TabIn_cjk.ti_of t | _ => TabIn_sb.ti_of t end.
Ltac sx_pre b ::= u32_in b.

(** ** The binary searches *)
(** The middle of a non-empty interval halves it. *)
Lemma half : forall fuel k1 k2, k1 < k2 -> k2 - k1 < 2 ^ Z.of_nat (S fuel) ->
  let k := (k1 + k2) / 2 in k1 <= k < k2 /\ k - k1 < 2 ^ Z.of_nat fuel /\ k2 - (k + 1) < 2 ^ Z.of_nat fuel.
Proof.
  intros fuel k1 k2 H L k. rewrite Nat2Z.inj_succ, Z.pow_succ_r in L by lia.
  pose proof (Z.div_mod (k1 + k2) 2 ltac:(lia)). pose proof (Z.mod_pos_bound (k1 + k2) 2 ltac:(lia)). fold k in H0. lia.
Qed.

Definition ranged (i : Z) (pwc : option Z) (m : res (Z * option Z)) : Prop :=
  m = Ok (-1, pwc) \/ exists d, 128 <= d <= 26116 /\ m = Ok (4, Some (i + d)).
Ltac search_dec S0 :=
  let fuel := fresh "fuel" in let IH := fresh "IH" in
  induction fuel as [|fuel IH]; intros i k1 k2 pwc K1 K2 L;
  [ rewrite S0; rewrite (proj2 (Z.ltb_ge k1 k2)) by (cbn in L; lia);
    destruct (ti_gb18030uni_ranges k1 ltac:(lia)) as (d & E & R); unfold tget; rewrite E; right; exists d; split; [lia|reflexivity]
  | rewrite S0; destruct (Z.ltb_spec k1 k2) as [H|H];
    [ destruct (half _ _ _ H L) as (A & B & C); cbv zeta; set (k := (k1 + k2) / 2) in *; clearbody k;
      destruct (ti_gb18030uni_charset2uni_ranges (2 * k + 1) ltac:(lia)) as (x & E & R); unfold tget; rewrite E;
      destruct (i <=? x); [apply IH; lia|];
      destruct (ti_gb18030uni_charset2uni_ranges (2 * k + 2) ltac:(lia)) as (y & E' & R'); rewrite E';
      destruct (i >=? y); [apply IH; lia|left; reflexivity]
    | destruct (ti_gb18030uni_ranges k1 ltac:(lia)) as (d & E & R); unfold tget; rewrite E; right; exists d; split; [lia|reflexivity] ] ].
Lemma search_2005 : forall fuel i k1 k2 pwc, 0 <= k1 -> k1 <= k2 <= 205 -> k2 - k1 < 2 ^ Z.of_nat fuel ->
  ranged i pwc (gb18030_2005_uni_mbtowc_loop (S fuel) i k1 k2 pwc).
Proof. search_dec gb18030_2005_uni_mbtowc_loop_S. Qed.
Lemma search_2022 : forall fuel i k1 k2 pwc, 0 <= k1 -> k1 <= k2 <= 205 -> k2 - k1 < 2 ^ Z.of_nat fuel ->
  ranged i pwc (gb18030_2022_uni_mbtowc_loop (S fuel) i k1 k2 pwc).
Proof. search_dec gb18030_2022_uni_mbtowc_loop_S. Qed.
Lemma found_2005 : forall i, ranged i None (gb18030_2005_uni_mbtowc_loop 64 i 0 0xcd None).
Proof. intro i. apply (search_2005 63); [lia..|reflexivity]. Qed.
Lemma found_2022 : forall i, ranged i None (gb18030_2022_uni_mbtowc_loop 64 i 0 0xcd None).
Proof. intro i. apply (search_2022 63); [lia..|reflexivity]. Qed.

(** ** The decoders *)
Ltac gbd_loop f D i :=
  first [ match goal with E : f 64%nat i _ _ _ = _ |- _ => dl_use E end
        | let E := fresh "E" in let d := fresh "d" in let R := fresh "R" in
          destruct (D i) as [E|(d & R & E)]; dl_use E ].
Ltac sx_call m ::=
  lazymatch m with
  | gb18030_2005_uni_mbtowc_loop 64%nat ?i _ _ _ => gbd_loop gb18030_2005_uni_mbtowc_loop found_2005 i
  | gb18030_2022_uni_mbtowc_loop 64%nat ?i _ _ _ => gbd_loop gb18030_2022_uni_mbtowc_loop found_2022 i
  | _ => djk_call m
  end.
Lemma dec_gb18030_2005 : dec_ok enc_gb18030_2005 1 inv0 pend0 ucs4 /\ dec_stable enc_gb18030_2005 inv0.
Proof. apply dec0_intro with gb18030_2005_mbtowc; [reflexivity..|]. open4; d0_go. Qed.
Lemma dec_gb18030_2022 : dec_ok enc_gb18030_2022 1 inv0 pend0 ucs4 /\ dec_stable enc_gb18030_2022 inv0.
Proof. apply dec0_intro with gb18030_2022_mbtowc; [reflexivity..|]. open4; d0_go. Qed.
