(** Decoder contracts of ISO-2022-JP-MS. *)
(* Written by tools/genisodec.py. *)
From Coq Require Import ZArith List Bool Lia.
From Verif Require Import Base Loop Contract LoopLib Reflect Sx Rng EncLib DecLib DLeaf.
From Verif Require Import Conv_uni Conv_sb Conv_set_ja Conv_set_zh Conv_set_ko Conv_cjk Conv_iso2022 Encodings Unroll.
Import ListNotations.
Open Scope Z_scope.

(** ** jpms *)
Definition jpms_ist (ist : Z) : Prop := exists st, ist = st /\ 0 <= st <= 4.
Lemma jpms_ist_0 : jpms_ist 0.
Proof. exists 0. split; [reflexivity|lia]. Qed.
Definition jpms_dinv (i : Z * Z) : Prop := jpms_ist (fst i) /\ snd i = 0.
Definition jpms_L (fuel : nat) (count : Z) (s : list Z) (i : Z * Z) :=
  iso2022_jpms_mbtowc_loop fuel count (fst i) s (Z.to_nat count + length s) None (snd i).
Lemma jpms_L_eq : forall fuel count s st ibo, jpms_L fuel count s (st, ibo) =
  iso2022_jpms_mbtowc_loop fuel count st s (Z.to_nat count + length s) None ibo.
Proof.
  reflexivity.
Qed.
Lemma jpms_L_S : forall fuel count s st ibo, jpms_L (S fuel) count s (st, ibo) =
  ltac:(let T := type of (iso2022_jpms_mbtowc_loop_S fuel count st s (Z.to_nat count + length s) None ibo) in lazymatch T with _ = ?b => exact b end).
Proof. intros. rewrite jpms_L_eq by assumption. exact (iso2022_jpms_mbtowc_loop_S fuel count st s (Z.to_nat count + length s) None ibo). Qed.
Lemma jpms_mb : forall s n ist ibo, iso2022_jpms_mbtowc s n ist ibo = iso2022_jpms_mbtowc_loop (8 + 4 * n) 0 ist s n None ibo.
Proof. reflexivity. Qed.
Lemma jpms_f_mb : f_mb enc_iso2022_jpms = iso2022_jpms_mbtowc.
Proof. reflexivity. Qed.
Lemma jpms_He : forall s i, f_mb enc_iso2022_jpms s (length s) (fst i) (snd i) = jpms_L (8 + 4 * length s) 0 s i.
Proof. intros s i. rewrite jpms_f_mb, jpms_mb. unfold jpms_L. change (Z.to_nat 0 + length s)%nat with (length s). reflexivity. Qed.
Ltac sx_stop m ::= lazymatch m with iso2022_jpms_mbtowc_loop _ _ _ _ _ _ _ => idtac | _ => fail end.
Ltac h_open ::= eapply holds_same; [apply jpms_L_S; lia|]; cbn [length].
Ltac h_unL H ::= rewrite jpms_L_eq in H by lia.
Ltac h_count m ::= lazymatch m with iso2022_jpms_mbtowc_loop _ ?c _ _ _ _ _ => c end.
Ltac h_state m ::= lazymatch m with iso2022_jpms_mbtowc_loop _ _ ?st _ _ _ ?ibo => constr:((st, ibo)) end.
Ltac h_inv ::= solve [split; [cbn [fst]; eexists _; split; [reflexivity|lia]|reflexivity]].
Lemma dec_iso2022_jpms_ok : dec_ok enc_iso2022_jpms 1 jpms_dinv (fun _ => false) ucs4 /\ dec_stable enc_iso2022_jpms jpms_dinv.
Proof.
  iso_prove jpms_L jpms_He jpms_ist jpms_ist_0; destruct A as (st & -> & A); iso_bytes 27 w4.
  all: h_go.
Qed.

