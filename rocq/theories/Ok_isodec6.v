(** Decoder contracts of HZ. *)
(* Written by tools/genisodec.py. *)
From Coq Require Import ZArith List Bool Lia.
From Verif Require Import Base Loop Contract LoopLib Reflect Sx Rng EncLib DecLib DLeaf.
From Verif Require Import Conv_uni Conv_sb Conv_set_ja Conv_set_zh Conv_set_ko Conv_cjk Conv_iso2022 Encodings Unroll.
Import ListNotations.
Open Scope Z_scope.

Lemma u32_id : forall x, 0 <= x < 0x100000000 -> u32 x = x.
Proof. intros x H. unfold u32. apply Z.mod_small. exact H. Qed.
Lemma s32_id : forall x, 0 <= x < 0x80000000 -> s32 x = x.
Proof. intros x H. unfold s32. rewrite u32_id by lia. cbv zeta. rewrite (proj2 (Z.ltb_lt _ _)) by lia. reflexivity. Qed.
Lemma s32_few : forall c, 0 <= c < 0x40000000 -> s32 (0xfffffffe - 2 * c) = -2 - 2 * c.
Proof. intros x H. unfold s32. rewrite u32_id by lia. cbv zeta. rewrite (proj2 (Z.ltb_ge _ _)) by lia. lia. Qed.
Lemma s32_ill : forall c, 0 <= c < 0x40000000 -> s32 (0xffffffff - 2 * c) = -1 - 2 * c.
Proof. intros x H. unfold s32. rewrite u32_id by lia. cbv zeta. rewrite (proj2 (Z.ltb_ge _ _)) by lia. lia. Qed.
(** The arithmetic of this decoder is unsigned. *)
Ltac hz_norm := cbv zeta; repeat match goal with |- context [u32 ?e] => rewrite (u32_id e) by lia end;
  repeat match goal with |- context [s32 (4294967294 - 2 * ?e)] => rewrite (s32_few e) by lia | |- context [s32 (4294967295 - 2 * ?e)] => rewrite (s32_ill e) by lia
  | |- context [s32 ?e] => rewrite (s32_id e) by lia end.

(** ** hz *)
Definition hz_ist (ist : Z) : Prop := exists st, ist = st /\ 0 <= st <= 1.
Lemma hz_ist_0 : hz_ist 0.
Proof. exists 0. split; [reflexivity|lia]. Qed.
Definition hz_dinv (i : Z * Z) : Prop := hz_ist (fst i) /\ snd i = 0.
Definition hz_L (fuel : nat) (count : Z) (s : list Z) (i : Z * Z) :=
  hz_mbtowc_loop fuel count (fst i) s (Z.to_nat count + length s) None (snd i).
Lemma hz_L_eq : forall fuel count s st ibo, hz_L fuel count s (st, ibo) =
  hz_mbtowc_loop fuel count st s (Z.to_nat count + length s) None ibo.
Proof.
  reflexivity.
Qed.
Lemma hz_L_S : forall fuel count s st ibo, hz_L (S fuel) count s (st, ibo) =
  ltac:(let T := type of (hz_mbtowc_loop_S fuel count st s (Z.to_nat count + length s) None ibo) in lazymatch T with _ = ?b => exact b end).
Proof. intros. rewrite hz_L_eq by assumption. exact (hz_mbtowc_loop_S fuel count st s (Z.to_nat count + length s) None ibo). Qed.
Lemma hz_mb : forall s n ist ibo, hz_mbtowc s n ist ibo = hz_mbtowc_loop (8 + 4 * n) 0 ist s n None ibo.
Proof. reflexivity. Qed.
Lemma hz_f_mb : f_mb enc_hz = hz_mbtowc.
Proof. reflexivity. Qed.
Lemma hz_He : forall s i, f_mb enc_hz s (length s) (fst i) (snd i) = hz_L (8 + 4 * length s) 0 s i.
Proof. intros s i. rewrite hz_f_mb, hz_mb. unfold hz_L. change (Z.to_nat 0 + length s)%nat with (length s). reflexivity. Qed.
Ltac sx_stop m ::= lazymatch m with hz_mbtowc_loop _ _ _ _ _ _ _ => idtac | _ => fail end.
Ltac h_open ::= eapply holds_same; [apply hz_L_S; lia|]; cbn [length]; hz_norm.
Ltac h_unL H ::= rewrite hz_L_eq in H by lia.
Ltac h_count m ::= lazymatch m with hz_mbtowc_loop _ ?c _ _ _ _ _ => c end.
Ltac h_state m ::= lazymatch m with hz_mbtowc_loop _ _ ?st _ _ _ ?ibo => constr:((st, ibo)) end.
Ltac h_inv ::= solve [split; [cbn [fst]; eexists _; split; [reflexivity|lia]|reflexivity]].
Lemma dec_hz_ok : dec_ok enc_hz 1 hz_dinv (fun _ => false) ucs4 /\ dec_stable enc_hz hz_dinv.
Proof.
  iso_prove hz_L hz_He hz_ist hz_ist_0; destruct A as (st & -> & A); iso_bytes 126 w2.
  all: h_go.
Qed.

