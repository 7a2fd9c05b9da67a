(** What the tables of JISX 0213 can give, for the decoders that use them. *)
From Coq Require Import ZArith List Bool Lia.
From Verif Require Import Base Loop Contract LoopLib Reflect Sx Rng EncLib DecLib TabLib SbLib.
From Verif Require Import Tab_jis Conv_set_ja.
Import ListNotations.
Open Scope Z_scope.

(** The second halves of the composed characters of JISX 0213. *)
Definition jp3_halves : list Z := [0x2e5; 0x2e9; 0x300; 0x301; 0x309a].

(** Entry k of the main table, combined with its page; below 0x80 it is an index into the composed characters,
    which occur in the first plane only. *)
Definition comb_ok (v : Z) : bool :=
  match tlookup jisx0213_to_ucs_combining (2 * (v - 1)), tlookup jisx0213_to_ucs_combining (2 * (v - 1) + 1) with
  | Some w1, Some w2 => (0x80 <=? w1) && (w1 <? 0x10000) && mem jp3_halves w2
  | _, _ => false
  end.
Definition j213_chk (k : Z) : bool :=
  match tlookup jisx0213_to_ucs_main k with
  | Some x1 => match tlookup jisx0213_to_ucs_pagestart (Z.shiftr x1 8) with
    | Some x2 => let v := x2 + Z.land x1 0xff in (v =? 0) || ((0x80 <=? v) && (v <? 0x30000)) || ((1 <=? v) && (v <? 0x80) && (k <? 8836) && comb_ok v)
    | None => false
    end
  | None => false
  end.
Lemma j213_all : zall 14 11280 j213_chk = true.
Proof. vm_cast_no_check (eq_refl true). Qed.
Definition j213_comb (v : Z) : Prop := exists w1 w2,
  tlookup jisx0213_to_ucs_combining (2 * (v - 1)) = Some w1 /\ tlookup jisx0213_to_ucs_combining (2 * (v - 1) + 1) = Some w2 /\
  0x80 <= w1 < 0x10000 /\ In w2 jp3_halves.
Lemma j213_main : forall k, 0 <= k < 11280 -> exists x1 x2,
  tlookup jisx0213_to_ucs_main k = Some x1 /\ tlookup jisx0213_to_ucs_pagestart (Z.shiftr x1 8) = Some x2 /\
  (x2 + Z.land x1 0xff = 0 \/ 0x80 <= x2 + Z.land x1 0xff < 0x30000 \/ (1 <= x2 + Z.land x1 0xff < 0x80 /\ k < 8836 /\ j213_comb (x2 + Z.land x1 0xff))).
Proof.
  intros k H. pose proof (zall_sound _ _ _ j213_all ltac:(vm_compute; discriminate) k H) as C. unfold j213_chk in C.
  destruct (tlookup jisx0213_to_ucs_main k) as [x1|]; [|discriminate C].
  destruct (tlookup jisx0213_to_ucs_pagestart (Z.shiftr x1 8)) as [x2|] eqn:E; [|discriminate C].
  exists x1, x2. split; [reflexivity|]. split; [exact E|]. cbv zeta in C. set (v := x2 + Z.land x1 255) in *.
  rewrite !orb_true_iff, !andb_true_iff, Z.eqb_eq, !Z.leb_le, !Z.ltb_lt in C. destruct C as [[C|C]|[[[C1 C2] C3] C4]]; [left; exact C|right; left; lia|right; right].
  split; [lia|]. split; [lia|]. unfold comb_ok in C4. unfold j213_comb.
  destruct (tlookup jisx0213_to_ucs_combining (2 * (v - 1))) as [w1|]; [|discriminate C4].
  destruct (tlookup jisx0213_to_ucs_combining (2 * (v - 1) + 1)) as [w2|]; [|discriminate C4].
  rewrite !andb_true_iff, Z.leb_le, Z.ltb_lt in C4. exists w1, w2. repeat split; try tauto. apply mem_In. tauto.
Qed.
(** What is found for row r (0x100 or 0x200 for the plane, plus a 7-bit byte) and column b. *)
Definition j213_res (r v : Z) : Prop := v = 0 \/ 0x80 <= v < 0x30000 \/ (1 <= v < 0x80 /\ r < 0x200 /\ j213_comb v).
Ltac sx_call m ::=
  lazymatch m with
  | tget jisx0213_to_ucs_main ?k _ =>
    let x1 := fresh "x" in let x2 := fresh "x" in let E1 := fresh "E" in let E2 := fresh "E" in let V := fresh "V" in
    destruct (j213_main k ltac:(lia)) as (x1 & x2 & E1 & E2 & V); apply (holds_tget _ _ _ _ _ _ _ E1); cbv beta
  | tget ?t ?i _ => match goal with E : tlookup t i = Some _ |- _ => apply (holds_tget _ _ _ _ _ _ _ E); cbv beta end
  end.
Lemma j213_row : forall r b, exists v, jisx0213_to_ucs4 r b = Ok v /\ j213_res r v.
Proof.
  intros r b. apply holds_ex. unfold j213_res. sx; try (left; reflexivity).
  all: destruct V as [V|[V|(V & K & J)]]; [left; exact V|right; left; exact V|right; right; split; [exact V|split; [lia|exact J]]].
Qed.
