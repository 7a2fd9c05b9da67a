(** Decoder contracts of ISO-2022-KR and ISO-2022-CN. *)
(* Written by tools/genisodec.py. *)
From Coq Require Import ZArith List Bool Lia.
From Verif Require Import Base Loop Contract LoopLib Reflect Sx Rng EncLib DecLib DLeaf.
From Verif Require Import Conv_uni Conv_sb Conv_set_ja Conv_set_zh Conv_set_ko Conv_cjk Conv_iso2022 Encodings Unroll.
Import ListNotations.
Open Scope Z_scope.

(** ** kr *)
Definition kr_ist (ist : Z) : Prop := exists s1 s2, ist = Z.lor (Z.shiftl s2 8) s1 /\ 0 <= s1 <= 1 /\ 0 <= s2 <= 1 /\ (s1 = 1 -> s2 = 1).
Lemma kr_ist_0 : kr_ist 0.
Proof. exists 0, 0. split; [reflexivity|lia]. Qed.
Definition kr_dinv (i : Z * Z) : Prop := kr_ist (fst i) /\ snd i = 0.
Definition kr_L (fuel : nat) (count : Z) (s : list Z) (i : Z * Z) :=
  iso2022_kr_mbtowc_loop fuel count (Z.land (fst i) 255) (Z.shiftr (fst i) 8) s (Z.to_nat count + length s) None (snd i).
Lemma kr_L_eq : forall fuel count s s1 s2 ibo, 0 <= s1 <= 1 -> 0 <= s2 <= 1 -> kr_L fuel count s (Z.lor (Z.shiftl s2 8) s1, ibo) =
  iso2022_kr_mbtowc_loop fuel count s1 s2 s (Z.to_nat count + length s) None ibo.
Proof.
  intros fuel count s s1 s2 ibo H0 H1. unfold kr_L. cbn [fst snd].
  replace (Z.land (Z.lor (Z.shiftl s2 8) s1) 255) with s1 by unpack_.
  replace (Z.shiftr (Z.lor (Z.shiftl s2 8) s1) 8) with s2 by unpack_.
  reflexivity.
Qed.
Lemma kr_L_S : forall fuel count s s1 s2 ibo, 0 <= s1 <= 1 -> 0 <= s2 <= 1 -> kr_L (S fuel) count s (Z.lor (Z.shiftl s2 8) s1, ibo) =
  ltac:(let T := type of (iso2022_kr_mbtowc_loop_S fuel count s1 s2 s (Z.to_nat count + length s) None ibo) in lazymatch T with _ = ?b => exact b end).
Proof. intros. rewrite kr_L_eq by assumption. exact (iso2022_kr_mbtowc_loop_S fuel count s1 s2 s (Z.to_nat count + length s) None ibo). Qed.
Lemma kr_mb : forall s n ist ibo, iso2022_kr_mbtowc s n ist ibo = iso2022_kr_mbtowc_loop (8 + 4 * n) 0 (Z.land ist 255) (Z.shiftr ist 8) s n None ibo.
Proof. reflexivity. Qed.
Lemma kr_f_mb : f_mb enc_iso2022_kr = iso2022_kr_mbtowc.
Proof. reflexivity. Qed.
Lemma kr_He : forall s i, f_mb enc_iso2022_kr s (length s) (fst i) (snd i) = kr_L (8 + 4 * length s) 0 s i.
Proof. intros s i. rewrite kr_f_mb, kr_mb. unfold kr_L. change (Z.to_nat 0 + length s)%nat with (length s). reflexivity. Qed.
Ltac sx_stop m ::= lazymatch m with iso2022_kr_mbtowc_loop _ _ _ _ _ _ _ _ => idtac | _ => fail end.
Ltac h_open ::= eapply holds_same; [apply kr_L_S; lia|]; cbn [length].
Ltac h_unL H ::= rewrite kr_L_eq in H by lia.
Ltac h_count m ::= lazymatch m with iso2022_kr_mbtowc_loop _ ?c _ _ _ _ _ _ => c end.
Ltac h_state m ::= lazymatch m with iso2022_kr_mbtowc_loop _ _ ?s1 ?s2 _ _ _ ?ibo => constr:((Z.lor (Z.shiftl s2 8) s1, ibo)) end.
Ltac h_inv ::= solve [split; [cbn [fst]; eexists _, _; split; [reflexivity|lia]|reflexivity]].
Lemma dec_iso2022_kr_ok : dec_ok enc_iso2022_kr 1 kr_dinv (fun _ => false) ucs4 /\ dec_stable enc_iso2022_kr kr_dinv.
Proof.
  iso_prove kr_L kr_He kr_ist kr_ist_0; destruct A as (s1 & s2 & -> & A); iso_bytes 27 w4.
  all: h_go.
Qed.

(** ** cn *)
Definition cn_ist (ist : Z) : Prop := exists s1 s2 s3, ist = Z.lor (Z.lor (Z.shiftl s3 16) (Z.shiftl s2 8)) s1 /\ 0 <= s1 <= 1 /\ 0 <= s2 <= 2 /\ 0 <= s3 <= 1 /\ (s1 = 1 -> s2 <> 0).
Lemma cn_ist_0 : cn_ist 0.
Proof. exists 0, 0, 0. split; [reflexivity|lia]. Qed.
Definition cn_dinv (i : Z * Z) : Prop := cn_ist (fst i) /\ snd i = 0.
Definition cn_L (fuel : nat) (count : Z) (s : list Z) (i : Z * Z) :=
  iso2022_cn_mbtowc_loop fuel count (Z.land (fst i) 255) (Z.land (Z.shiftr (fst i) 8) 255) (Z.shiftr (fst i) 16) s (Z.to_nat count + length s) None (snd i).
Lemma cn_L_eq : forall fuel count s s1 s2 s3 ibo, 0 <= s1 <= 1 -> 0 <= s2 <= 2 -> 0 <= s3 <= 1 -> cn_L fuel count s (Z.lor (Z.lor (Z.shiftl s3 16) (Z.shiftl s2 8)) s1, ibo) =
  iso2022_cn_mbtowc_loop fuel count s1 s2 s3 s (Z.to_nat count + length s) None ibo.
Proof.
  intros fuel count s s1 s2 s3 ibo H0 H1 H2. unfold cn_L. cbn [fst snd].
  replace (Z.land (Z.lor (Z.lor (Z.shiftl s3 16) (Z.shiftl s2 8)) s1) 255) with s1 by unpack_.
  replace (Z.land (Z.shiftr (Z.lor (Z.lor (Z.shiftl s3 16) (Z.shiftl s2 8)) s1) 8) 255) with s2 by unpack_.
  replace (Z.shiftr (Z.lor (Z.lor (Z.shiftl s3 16) (Z.shiftl s2 8)) s1) 16) with s3 by unpack_.
  reflexivity.
Qed.
Lemma cn_L_S : forall fuel count s s1 s2 s3 ibo, 0 <= s1 <= 1 -> 0 <= s2 <= 2 -> 0 <= s3 <= 1 -> cn_L (S fuel) count s (Z.lor (Z.lor (Z.shiftl s3 16) (Z.shiftl s2 8)) s1, ibo) =
  ltac:(let T := type of (iso2022_cn_mbtowc_loop_S fuel count s1 s2 s3 s (Z.to_nat count + length s) None ibo) in lazymatch T with _ = ?b => exact b end).
Proof. intros. rewrite cn_L_eq by assumption. exact (iso2022_cn_mbtowc_loop_S fuel count s1 s2 s3 s (Z.to_nat count + length s) None ibo). Qed.
Lemma cn_mb : forall s n ist ibo, iso2022_cn_mbtowc s n ist ibo = iso2022_cn_mbtowc_loop (8 + 4 * n) 0 (Z.land ist 255) (Z.land (Z.shiftr ist 8) 255) (Z.shiftr ist 16) s n None ibo.
Proof. reflexivity. Qed.
Lemma cn_f_mb : f_mb enc_iso2022_cn = iso2022_cn_mbtowc.
Proof. reflexivity. Qed.
Lemma cn_He : forall s i, f_mb enc_iso2022_cn s (length s) (fst i) (snd i) = cn_L (8 + 4 * length s) 0 s i.
Proof. intros s i. rewrite cn_f_mb, cn_mb. unfold cn_L. change (Z.to_nat 0 + length s)%nat with (length s). reflexivity. Qed.
Ltac sx_stop m ::= lazymatch m with iso2022_cn_mbtowc_loop _ _ _ _ _ _ _ _ _ => idtac | _ => fail end.
Ltac h_open ::= eapply holds_same; [apply cn_L_S; lia|]; cbn [length].
Ltac h_unL H ::= rewrite cn_L_eq in H by lia.
Ltac h_count m ::= lazymatch m with iso2022_cn_mbtowc_loop _ ?c _ _ _ _ _ _ _ => c end.
Ltac h_state m ::= lazymatch m with iso2022_cn_mbtowc_loop _ _ ?s1 ?s2 ?s3 _ _ _ ?ibo => constr:((Z.lor (Z.lor (Z.shiftl s3 16) (Z.shiftl s2 8)) s1, ibo)) end.
Ltac h_inv ::= solve [split; [cbn [fst]; eexists _, _, _; split; [reflexivity|lia]|reflexivity]].
Lemma dec_iso2022_cn_ok : dec_ok enc_iso2022_cn 1 cn_dinv (fun _ => false) ucs4 /\ dec_stable enc_iso2022_cn cn_dinv.
Proof.
  iso_prove cn_L cn_He cn_ist cn_ist_0; destruct A as (s1 & s2 & s3 & -> & A); iso_bytes 27 w4.
  all: h_go.
Qed.

