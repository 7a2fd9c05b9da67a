(** Decoder contracts of ISO-2022-JP and ISO-2022-JP-1. *)
(* Written by tools/genisodec.py. *)
From Coq Require Import ZArith List Bool Lia.
From Verif Require Import Base Loop Contract LoopLib Reflect Sx Rng EncLib DecLib DLeaf.
From Verif Require Import Conv_uni Conv_sb Conv_set_ja Conv_set_zh Conv_set_ko Conv_cjk Conv_iso2022 Encodings Unroll.
Import ListNotations.
Open Scope Z_scope.

(** ** jp *)
Definition jp_ist (ist : Z) : Prop := exists st, ist = st /\ 0 <= st <= 2.
Lemma jp_ist_0 : jp_ist 0.
Proof. exists 0. split; [reflexivity|lia]. Qed.
Definition jp_dinv (i : Z * Z) : Prop := jp_ist (fst i) /\ snd i = 0.
Definition jp_L (fuel : nat) (count : Z) (s : list Z) (i : Z * Z) :=
  iso2022_jp_mbtowc_loop fuel count (fst i) s (Z.to_nat count + length s) None (snd i).
Lemma jp_L_eq : forall fuel count s st ibo, jp_L fuel count s (st, ibo) =
  iso2022_jp_mbtowc_loop fuel count st s (Z.to_nat count + length s) None ibo.
Proof.
  reflexivity.
Qed.
Lemma jp_L_S : forall fuel count s st ibo, jp_L (S fuel) count s (st, ibo) =
  ltac:(let T := type of (iso2022_jp_mbtowc_loop_S fuel count st s (Z.to_nat count + length s) None ibo) in lazymatch T with _ = ?b => exact b end).
Proof. intros. rewrite jp_L_eq by assumption. exact (iso2022_jp_mbtowc_loop_S fuel count st s (Z.to_nat count + length s) None ibo). Qed.
Lemma jp_mb : forall s n ist ibo, iso2022_jp_mbtowc s n ist ibo = iso2022_jp_mbtowc_loop (8 + 4 * n) 0 ist s n None ibo.
Proof. reflexivity. Qed.
Lemma jp_f_mb : f_mb enc_iso2022_jp = iso2022_jp_mbtowc.
Proof. reflexivity. Qed.
Lemma jp_He : forall s i, f_mb enc_iso2022_jp s (length s) (fst i) (snd i) = jp_L (8 + 4 * length s) 0 s i.
Proof. intros s i. rewrite jp_f_mb, jp_mb. unfold jp_L. change (Z.to_nat 0 + length s)%nat with (length s). reflexivity. Qed.
Ltac sx_stop m ::= lazymatch m with iso2022_jp_mbtowc_loop _ _ _ _ _ _ _ => idtac | _ => fail end.
Ltac h_open ::= eapply holds_same; [apply jp_L_S; lia|]; cbn [length].
Ltac h_unL H ::= rewrite jp_L_eq in H by lia.
Ltac h_count m ::= lazymatch m with iso2022_jp_mbtowc_loop _ ?c _ _ _ _ _ => c end.
Ltac h_state m ::= lazymatch m with iso2022_jp_mbtowc_loop _ _ ?st _ _ _ ?ibo => constr:((st, ibo)) end.
Ltac h_inv ::= solve [split; [cbn [fst]; eexists _; split; [reflexivity|lia]|reflexivity]].
Lemma dec_iso2022_jp_ok : dec_ok enc_iso2022_jp 1 jp_dinv (fun _ => false) ucs4 /\ dec_stable enc_iso2022_jp jp_dinv.
Proof.
  iso_prove jp_L jp_He jp_ist jp_ist_0; destruct A as (st & -> & A); iso_bytes 27 w3.
  all: h_go.
Qed.

(** ** jp1 *)
Definition jp1_ist (ist : Z) : Prop := exists st, ist = st /\ 0 <= st <= 3.
Lemma jp1_ist_0 : jp1_ist 0.
Proof. exists 0. split; [reflexivity|lia]. Qed.
Definition jp1_dinv (i : Z * Z) : Prop := jp1_ist (fst i) /\ snd i = 0.
Definition jp1_L (fuel : nat) (count : Z) (s : list Z) (i : Z * Z) :=
  iso2022_jp1_mbtowc_loop fuel count (fst i) s (Z.to_nat count + length s) None (snd i).
Lemma jp1_L_eq : forall fuel count s st ibo, jp1_L fuel count s (st, ibo) =
  iso2022_jp1_mbtowc_loop fuel count st s (Z.to_nat count + length s) None ibo.
Proof.
  reflexivity.
Qed.
Lemma jp1_L_S : forall fuel count s st ibo, jp1_L (S fuel) count s (st, ibo) =
  ltac:(let T := type of (iso2022_jp1_mbtowc_loop_S fuel count st s (Z.to_nat count + length s) None ibo) in lazymatch T with _ = ?b => exact b end).
Proof. intros. rewrite jp1_L_eq by assumption. exact (iso2022_jp1_mbtowc_loop_S fuel count st s (Z.to_nat count + length s) None ibo). Qed.
Lemma jp1_mb : forall s n ist ibo, iso2022_jp1_mbtowc s n ist ibo = iso2022_jp1_mbtowc_loop (8 + 4 * n) 0 ist s n None ibo.
Proof. reflexivity. Qed.
Lemma jp1_f_mb : f_mb enc_iso2022_jp1 = iso2022_jp1_mbtowc.
Proof. reflexivity. Qed.
Lemma jp1_He : forall s i, f_mb enc_iso2022_jp1 s (length s) (fst i) (snd i) = jp1_L (8 + 4 * length s) 0 s i.
Proof. intros s i. rewrite jp1_f_mb, jp1_mb. unfold jp1_L. change (Z.to_nat 0 + length s)%nat with (length s). reflexivity. Qed.
Ltac sx_stop m ::= lazymatch m with iso2022_jp1_mbtowc_loop _ _ _ _ _ _ _ => idtac | _ => fail end.
Ltac h_open ::= eapply holds_same; [apply jp1_L_S; lia|]; cbn [length].
Ltac h_unL H ::= rewrite jp1_L_eq in H by lia.
Ltac h_count m ::= lazymatch m with iso2022_jp1_mbtowc_loop _ ?c _ _ _ _ _ => c end.
Ltac h_state m ::= lazymatch m with iso2022_jp1_mbtowc_loop _ _ ?st _ _ _ ?ibo => constr:((st, ibo)) end.
Ltac h_inv ::= solve [split; [cbn [fst]; eexists _; split; [reflexivity|lia]|reflexivity]].
Lemma dec_iso2022_jp1_ok : dec_ok enc_iso2022_jp1 1 jp1_dinv (fun _ => false) ucs4 /\ dec_stable enc_iso2022_jp1 jp1_dinv.
Proof.
  iso_prove jp1_L jp1_He jp1_ist jp1_ist_0; destruct A as (st & -> & A); iso_bytes 27 w4.
  all: h_go.
Qed.

