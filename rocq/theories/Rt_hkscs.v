(** BIG5-HKSCS reads back what was written. *)
From Coq Require Import ZArith List Bool Lia.
From Verif Require Import Base Loop Contract LoopLib Reflect Sx Rng EncLib DecLib Spec SpecProps TabLib SbLib Leaf CharLib UniSpec UniProps Round Unroll RtLib RtHold.
From Verif Require Import Conv_uni Conv_sb Conv_set_ja Conv_set_zh Conv_set_ko Conv_cjk Encodings DLeaf DCjk CjkLib Ok_held Ok_hkscs.
Import ListNotations.
Open Scope Z_scope.

(** A charset that is part of several encodings: what it writes for c, each of them reads as c.  Codes C6A1..C7FE of Big5 are not used. *)
Definition part_of (fs : list funcs) (big5 : bool) (g : Z -> nat -> res (Z * wlog)) (c : Z) : bool :=
  match g c 2%nat with
  | Ok (2, l) =>
    match lfind l 0%nat, lfind l 1%nat with
    | Some a, Some b => if big5 && (((a =? 0xc6) && (0xa1 <=? b)) || (a =? 0xc7)) then true else forallb (fun f => is_char f [a; b] c 0) fs
    | _, _ => false
    end
  | _ => true
  end.
Lemma part_all : forall fs b g ivs, (forall c, ucs4 c -> covered ivs c = false -> holds (g c 2%nat) (fun x => fst x < 0)) ->
  forallb (fun r => iv_all (Z.to_nat (snd r - fst r)) (fst r) (part_of fs b g)) ivs = true -> forall c, ucs4 c -> part_of fs b g c = true.
Proof.
  intros fs b g ivs Out C c U. destruct (covered ivs c) eqn:K.
  - unfold covered in K. apply existsb_exists in K. destruct K as ((lo, hi) & I & R). cbn [fst snd] in R.
    rewrite forallb_forall in C. specialize (C _ I). cbn [fst snd] in C. apply (iv_all_sound _ _ _ C). lia.
  - specialize (Out c U K). unfold part_of. destruct (g c 2%nat) as [[r l]| | |]; cbn in Out; try contradiction.
    destruct r as [|[?|[?|?|]|]|?]; try reflexivity; lia.
Qed.
Lemma part_use : forall fs big5 g c a b, part_of fs big5 g c = true -> g c 2%nat = Ok (2, [(1%nat, b); (0%nat, a)]) -> big5 && (((a =? 0xc6) && (0xa1 <=? b)) || (a =? 0xc7)) = false ->
  forall f, In f fs -> is_char f [a; b] c 0 = true.
Proof.
  intros fs big5 g c a b H E X f I. unfold part_of in H. rewrite E in H. cbn [lfind Nat.eqb] in H. rewrite X in H. rewrite forallb_forall in H. now apply H.
Qed.

Definition hkscs_from (y : Z) : list funcs :=
  (if y <=? 1999 then [enc_big5hkscs1999] else []) ++ (if y <=? 2001 then [enc_big5hkscs2001] else []) ++ (if y <=? 2004 then [enc_big5hkscs2004] else []) ++ [enc_big5hkscs2008].
Ltac sx_call m ::= outside.
Definition ivs_big5 : ranges := [(0x0, 0x100); (0x200, 0x460); (0x2000, 0x22c0); (0x2400, 0x2650); (0x3000, 0x33e0); (0x4e00, 0x9fb0); (0xfa00, 0xfa10); (0xfe00, 0xff70)].
Lemma part_big5 : forall c, ucs4 c -> part_of (hkscs_from 1999) true big5_wctomb c = true.
Proof. apply (part_all _ _ _ ivs_big5); [enc_outside|vm_cast_no_check (eq_refl true)]. Qed.
Definition ivs_hkscs1999 : ranges := [(0x0, 0x2d0); (0x400, 0x460); (0x1e00, 0x1ed0); (0x2100, 0x21f0); (0x2300, 0x2580); (0x2700, 0x2740); (0x2e00, 0x3240); (0x3400, 0x9fc0); (0xf900, 0xf910); (0xff00, 0xfff0); (0x20000, 0x291f0); (0x29400, 0x29600); (0x29700, 0x2a6b0); (0x2f800, 0x2f9e0)].
Lemma part_hkscs1999 : forall c, ucs4 c -> part_of (hkscs_from 1999) false hkscs1999_wctomb c = true.
Proof. apply (part_all _ _ _ ivs_hkscs1999); [enc_outside|vm_cast_no_check (eq_refl true)]. Qed.
Definition ivs_hkscs2001 : ranges := [(0x3500, 0x3560); (0x3c00, 0x3ee0); (0x4000, 0x4080); (0x4200, 0x42b0); (0x4b00, 0x4c90); (0x4e00, 0x51b0); (0x5300, 0x5440); (0x5700, 0x58e0); (0x5a00, 0x5fd0); (0x6100, 0x6130); (0x6500, 0x6590); (0x6700, 0x6770); (0x6900, 0x6a70); (0x6c00, 0x6e00); (0x7000, 0x74c0); (0x7600, 0x78f0); (0x7a00, 0x7e70); (0x8200, 0x8300); (0x8500, 0x8610); (0x8800, 0x88a0); (0x8b00, 0x8b90); (0x8e00, 0x8fd0); (0x9100, 0x9400); (0x9700, 0x99f0); (0x9f00, 0x9fb0); (0x21400, 0x21440); (0x21900, 0x21990); (0x21d00, 0x21dc0); (0x22000, 0x22080); (0x22700, 0x22720); (0x23200, 0x23400); (0x23c00, 0x23c70); (0x24100, 0x24150); (0x24500, 0x24510); (0x24900, 0x24a20); (0x25100, 0x251d0); (0x25600, 0x256a0); (0x25c00, 0x25d40); (0x26b00, 0x26b20); (0x26d00, 0x26d80); (0x26f00, 0x26fc0); (0x27100, 0x27110); (0x28700, 0x28710); (0x28900, 0x28af0); (0x28d00, 0x28dc0); (0x29900, 0x29950); (0x29c00, 0x29c80); (0x2a100, 0x2a2c0)].
Lemma part_hkscs2001 : forall c, ucs4 c -> part_of (hkscs_from 2001) false hkscs2001_wctomb c = true.
Proof. apply (part_all _ _ _ ivs_hkscs2001); [enc_outside|vm_cast_no_check (eq_refl true)]. Qed.
Definition ivs_hkscs2004 : ranges := [(0x3400, 0x3450); (0x3600, 0x3980); (0x3b00, 0x3ba0); (0x3d00, 0x3e00); (0x3f00, 0x41f0); (0x4300, 0x4750); (0x4a00, 0x4ab0); (0x4c00, 0x4d90); (0x4f00, 0x4fc0); (0x5600, 0x5700); (0x5900, 0x5d80); (0x5f00, 0x5f40); (0x6600, 0x6770); (0x6e00, 0x6e60); (0x7100, 0x7230); (0x7400, 0x74a0); (0x7900, 0x79d0); (0x7d00, 0x7da0); (0x8100, 0x8170); (0x8500, 0x85a0); (0x8a00, 0x8b00); (0x9700, 0x9860); (0x9f00, 0x9fc0); (0x20100, 0x20240); (0x20a00, 0x20ba0); (0x21a00, 0x21a70); (0x21d00, 0x21e30); (0x22100, 0x221d0); (0x22700, 0x227a0); (0x23200, 0x23260); (0x23500, 0x23620); (0x23b00, 0x23b20); (0x23e00, 0x240f0); (0x24200, 0x242c0); (0x24b00, 0x24b10); (0x25400, 0x254a0); (0x25a00, 0x25a60); (0x26b00, 0x26c50); (0x26e00, 0x26e90); (0x27000, 0x270e0); (0x27200, 0x27400); (0x27b00, 0x27cd0); (0x28600, 0x286c0); (0x28900, 0x28970); (0x28b00, 0x28bc0); (0x29000, 0x29080); (0x29800, 0x29950); (0x29e00, 0x29ec0); (0x2a100, 0x2a1c0); (0x2a300, 0x2a360)].
Lemma part_hkscs2004 : forall c, ucs4 c -> part_of (hkscs_from 2004) false hkscs2004_wctomb c = true.
Proof. apply (part_all _ _ _ ivs_hkscs2004); [enc_outside|vm_cast_no_check (eq_refl true)]. Qed.
Definition ivs_hkscs2008 : ranges := [(0x3400, 0x34f0); (0x3800, 0x3880); (0x3a00, 0x3b00); (0x3e00, 0x3ef0); (0x4000, 0x4190); (0x4300, 0x44f0); (0x4600, 0x46b0); (0x4900, 0x4940); (0x5200, 0x5250); (0x5400, 0x5450); (0x5700, 0x58a0); (0x6200, 0x62d0); (0x6600, 0x6790); (0x6a00, 0x6a30); (0x7000, 0x7070); (0x7300, 0x74d0); (0x7900, 0x7bd0); (0x8400, 0x8620); (0x8800, 0x88a0); (0x8b00, 0x8b90); (0x9000, 0x9050); (0x9200, 0x9220); (0x9400, 0x9430); (0x9700, 0x9750); (0x9f00, 0x9fd0); (0x20a00, 0x20a90); (0x21d00, 0x21d60); (0x22400, 0x224d0); (0x23100, 0x23260); (0x23500, 0x236a0); (0x24100, 0x24170); (0x25800, 0x258e0); (0x25d00, 0x25dc0); (0x26000, 0x26030); (0x26e00, 0x26e90); (0x27b00, 0x27b70); (0x28900, 0x28910); (0x2ad00, 0x2ae00)].
Lemma part_hkscs2008 : forall c, ucs4 c -> part_of (hkscs_from 2008) false hkscs2008_wctomb c = true.
Proof. apply (part_all _ _ _ ivs_hkscs2008); [enc_outside|vm_cast_no_check (eq_refl true)]. Qed.
