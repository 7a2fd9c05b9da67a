(** Decoder contracts of ISO-2022-JP-2. *)
(* Written by tools/genisodec.py. *)
From Coq Require Import ZArith List Bool Lia.
From Verif Require Import Base Loop Contract LoopLib Reflect Sx Rng EncLib DecLib DLeaf.
From Verif Require Import Conv_uni Conv_sb Conv_set_ja Conv_set_zh Conv_set_ko Conv_cjk Conv_iso2022 Encodings Unroll.
Import ListNotations.
Open Scope Z_scope.

(** ** jp2 *)
Definition jp2_ist (ist : Z) : Prop := exists s1 s2, ist = Z.lor (Z.shiftl s2 8) s1 /\ 0 <= s1 <= 6 /\ 0 <= s2 <= 2.
Lemma jp2_ist_0 : jp2_ist 0.
Proof. exists 0, 0. split; [reflexivity|lia]. Qed.
Definition jp2_dinv (i : Z * Z) : Prop := jp2_ist (fst i) /\ snd i = 0.
Definition jp2_L (fuel : nat) (count : Z) (s : list Z) (i : Z * Z) :=
  iso2022_jp2_mbtowc_loop fuel count (Z.land (fst i) 255) (Z.shiftr (fst i) 8) s (Z.to_nat count + length s) None (snd i).
Lemma jp2_L_eq : forall fuel count s s1 s2 ibo, 0 <= s1 <= 6 -> 0 <= s2 <= 2 -> jp2_L fuel count s (Z.lor (Z.shiftl s2 8) s1, ibo) =
  iso2022_jp2_mbtowc_loop fuel count s1 s2 s (Z.to_nat count + length s) None ibo.
Proof.
  intros fuel count s s1 s2 ibo H0 H1. unfold jp2_L. cbn [fst snd].
  replace (Z.land (Z.lor (Z.shiftl s2 8) s1) 255) with s1 by unpack_.
  replace (Z.shiftr (Z.lor (Z.shiftl s2 8) s1) 8) with s2 by unpack_.
  reflexivity.
Qed.
Lemma jp2_L_S : forall fuel count s s1 s2 ibo, 0 <= s1 <= 6 -> 0 <= s2 <= 2 -> jp2_L (S fuel) count s (Z.lor (Z.shiftl s2 8) s1, ibo) =
  ltac:(let T := type of (iso2022_jp2_mbtowc_loop_S fuel count s1 s2 s (Z.to_nat count + length s) None ibo) in lazymatch T with _ = ?b => exact b end).
Proof. intros. rewrite jp2_L_eq by assumption. exact (iso2022_jp2_mbtowc_loop_S fuel count s1 s2 s (Z.to_nat count + length s) None ibo). Qed.
Lemma jp2_mb : forall s n ist ibo, iso2022_jp2_mbtowc s n ist ibo = iso2022_jp2_mbtowc_loop (8 + 4 * n) 0 (Z.land ist 255) (Z.shiftr ist 8) s n None ibo.
Proof. reflexivity. Qed.
Lemma jp2_f_mb : f_mb enc_iso2022_jp2 = iso2022_jp2_mbtowc.
Proof. reflexivity. Qed.
Lemma jp2_He : forall s i, f_mb enc_iso2022_jp2 s (length s) (fst i) (snd i) = jp2_L (8 + 4 * length s) 0 s i.
Proof. intros s i. rewrite jp2_f_mb, jp2_mb. unfold jp2_L. change (Z.to_nat 0 + length s)%nat with (length s). reflexivity. Qed.
Ltac sx_stop m ::= lazymatch m with iso2022_jp2_mbtowc_loop _ _ _ _ _ _ _ _ => idtac | _ => fail end.
Ltac h_open ::= eapply holds_same; [apply jp2_L_S; lia|]; cbn [length].
Ltac h_unL H ::= rewrite jp2_L_eq in H by lia.
Ltac h_count m ::= lazymatch m with iso2022_jp2_mbtowc_loop _ ?c _ _ _ _ _ _ => c end.
Ltac h_state m ::= lazymatch m with iso2022_jp2_mbtowc_loop _ _ ?s1 ?s2 _ _ _ ?ibo => constr:((Z.lor (Z.shiftl s2 8) s1, ibo)) end.
Ltac h_inv ::= solve [split; [cbn [fst]; eexists _, _; split; [reflexivity|lia]|reflexivity]].
Lemma dec_iso2022_jp2_ok : dec_ok enc_iso2022_jp2 1 jp2_dinv (fun _ => false) ucs4 /\ dec_stable enc_iso2022_jp2 jp2_dinv.
Proof.
  iso_prove jp2_L jp2_He jp2_ist jp2_ist_0; destruct A as (s1 & s2 & -> & A); iso_bytes 27 w4.
  all: h_go.
Qed.

