(** CNS 11643 reads back what it writes. *)
From Coq Require Import ZArith List Bool Lia.
From Verif Require Import Base Loop Contract LoopLib Reflect Sx Rng EncLib DecLib Spec SpecProps Leaf CharLib UniSpec Round DLeaf Unroll RtLib.
From Verif Require Import Conv_uni Conv_sb Conv_set_ja Conv_set_zh Conv_set_ko Conv_cjk Conv_iso2022 Encodings.
Import ListNotations.
Open Scope Z_scope.

(** The decoder of a plane. *)
Definition plane (p : Z) : list Z -> nat -> res (Z * option Z) :=
  if p =? 1 then cns11643_1_mbtowc else if p =? 2 then cns11643_2_mbtowc else if p =? 3 then cns11643_3_mbtowc else if p =? 4 then cns11643_4_mbtowc
  else if p =? 5 then cns11643_5_mbtowc else if p =? 6 then cns11643_6_mbtowc else if p =? 7 then cns11643_7_mbtowc else if p =? 15 then cns11643_15_mbtowc else fun _ _ => UB.
Definition back3 (c : Z) : bool :=
  match cns11643_inv_wctomb c 3%nat with
  | Ok (3, l) =>
    match lfind l 0%nat, lfind l 1%nat, lfind l 2%nat with
    | Some p, Some a, Some b => match plane p [a; b] 2%nat with Ok (2, Some d) => d =? c | _ => false end
    | _, _, _ => false
    end
  | _ => true
  end.
Definition ivs_cns : ranges := [(0, 0x100); (0x200, 0x3d0); (0x2000, 0x22c0); (0x2400, 0x2650); (0x3000, 0x9fb0); (0xfa00, 0xfa30); (0xfe00, 0xfff0); (0x20000, 0x2a6e0); (0x2f800, 0x2fa20)].
Ltac sx_call m ::= outside.
Lemma cns_out : forall c, ucs4 c -> covered ivs_cns c = false -> holds (cns11643_inv_wctomb c 3%nat) (fun x => fst x < 0).
Proof. enc_outside. Qed.
Lemma cns_swept : forallb (fun r => iv_all (Z.to_nat (snd r - fst r)) (fst r) back3) ivs_cns = true.
Proof. vm_cast_no_check (eq_refl true). Qed.
Lemma back_cns : forall c, ucs4 c -> back3 c = true.
Proof.
  intros c U. destruct (covered ivs_cns c) eqn:K.
  - unfold covered in K. apply existsb_exists in K. destruct K as ((lo, hi) & I & R). cbn [fst snd] in R.
    pose proof cns_swept as C. rewrite forallb_forall in C. specialize (C _ I). cbn [fst snd] in C. apply (iv_all_sound _ _ _ C). lia.
  - pose proof (cns_out c U K) as Out. unfold back3. destruct (cns11643_inv_wctomb c 3%nat) as [[r l]| | |]; cbn in Out; try contradiction.
    destruct r as [|[[?|?|]|?|]|?]; try reflexivity; lia.
Qed.
Definition cns_back (p a b c : Z) : Prop := plane p [a; b] 2%nat = Ok (2, Some c).
Lemma back3_use : forall c p a b l, ucs4 c -> cns11643_inv_wctomb c 3%nat = Ok (3, l) -> lfind l 0%nat = Some p -> lfind l 1%nat = Some a -> lfind l 2%nat = Some b -> cns_back p a b c.
Proof.
  intros c p a b l U E P A B. pose proof (back_cns c U) as H. unfold back3 in H. unfold cns_back. rewrite E, P, A, B in H. destruct (plane p [a; b] 2%nat) as [[r w]| | |]; try discriminate.
  destruct r as [|[?|[?|?|]|]|?]; try discriminate. destruct w as [d|]; [|discriminate]. apply Z.eqb_eq in H. now subst.
Qed.
Lemma cns_use_1 : forall p a b c, cns_back p a b c -> p = 1 -> cns11643_1_mbtowc [a; b] 2%nat = Ok (2, Some c).
Proof. intros p a b c H ->. exact H. Qed.
Lemma cns_use_2 : forall p a b c, cns_back p a b c -> p = 2 -> cns11643_2_mbtowc [a; b] 2%nat = Ok (2, Some c).
Proof. intros p a b c H ->. exact H. Qed.
Lemma cns_use_3 : forall p a b c, cns_back p a b c -> p = 3 -> cns11643_3_mbtowc [a; b] 2%nat = Ok (2, Some c).
Proof. intros p a b c H ->. exact H. Qed.
Lemma cns_use_4 : forall p a b c, cns_back p a b c -> p = 4 -> cns11643_4_mbtowc [a; b] 2%nat = Ok (2, Some c).
Proof. intros p a b c H ->. exact H. Qed.
Lemma cns_use_5 : forall p a b c, cns_back p a b c -> p = 5 -> cns11643_5_mbtowc [a; b] 2%nat = Ok (2, Some c).
Proof. intros p a b c H ->. exact H. Qed.
Lemma cns_use_6 : forall p a b c, cns_back p a b c -> p = 6 -> cns11643_6_mbtowc [a; b] 2%nat = Ok (2, Some c).
Proof. intros p a b c H ->. exact H. Qed.
Lemma cns_use_7 : forall p a b c, cns_back p a b c -> p = 7 -> cns11643_7_mbtowc [a; b] 2%nat = Ok (2, Some c).
Proof. intros p a b c H ->. exact H. Qed.
Lemma cns_use_15 : forall p a b c, cns_back p a b c -> p = 15 -> cns11643_15_mbtowc [a; b] 2%nat = Ok (2, Some c).
Proof. intros p a b c H ->. exact H. Qed.
Ltac back_3 wc :=
  let E := fresh "E" in let R := fresh "R" in let p := fresh "p" in let a := fresh "a" in let b := fresh "b" in let R' := fresh "R" in
  destruct (leaf_ok_sound _ _ _ (leaf_cns11643 wc ltac:(assumption))) as [E|(p & a & b & R & E)];
  [|apply andb_true_iff in R; destruct R as [R R']; cbn [firstn skipn] in R, R'; apply inr1 in R; apply inr2 in R'; destruct R';
    pose proof (back3_use _ _ _ _ _ ltac:(eassumption) E eq_refl eq_refl eq_refl)];
  apply (holds_of _ _ _ _ _ E); cbv beta iota.
Ltac cns_2 U m := first [match goal with H : cns_back ?p ?a ?b ?c |- _ => pose proof (U _ _ _ _ H ltac:(lia)) end | idtac]; dl_call m.
Ltac cns_call m :=
  lazymatch m with
  | cns11643_inv_wctomb ?wc _ => back_3 wc
  | cns11643_1_mbtowc _ _ => cns_2 cns_use_1 m
  | cns11643_2_mbtowc _ _ => cns_2 cns_use_2 m
  | cns11643_3_mbtowc _ _ => cns_2 cns_use_3 m
  | cns11643_4_mbtowc _ _ => cns_2 cns_use_4 m
  | cns11643_5_mbtowc _ _ => cns_2 cns_use_5 m
  | cns11643_6_mbtowc _ _ => cns_2 cns_use_6 m
  | cns11643_7_mbtowc _ _ => cns_2 cns_use_7 m
  | _ => dl_call m
  end.
