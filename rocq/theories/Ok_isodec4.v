(** Decoder contracts of ISO-2022-CN-EXT. *)
(* Written by tools/genisodec.py. *)
From Coq Require Import ZArith List Bool Lia.
From Verif Require Import Base Loop Contract LoopLib Reflect Sx Rng EncLib DecLib DLeaf.
From Verif Require Import Conv_uni Conv_sb Conv_set_ja Conv_set_zh Conv_set_ko Conv_cjk Conv_iso2022 Encodings Unroll.
Import ListNotations.
Open Scope Z_scope.

(** ** cn_ext *)
Definition cn_ext_ist (ist : Z) : Prop := exists s1 s2 s3 s4, ist = Z.lor (Z.lor (Z.lor (Z.shiftl s4 24) (Z.shiftl s3 16)) (Z.shiftl s2 8)) s1 /\ 0 <= s1 <= 1 /\ 0 <= s2 <= 3 /\ 0 <= s3 <= 1 /\ 0 <= s4 <= 5 /\ (s1 = 1 -> s2 <> 0).
Lemma cn_ext_ist_0 : cn_ext_ist 0.
Proof. exists 0, 0, 0, 0. split; [reflexivity|lia]. Qed.
Definition cn_ext_dinv (i : Z * Z) : Prop := cn_ext_ist (fst i) /\ snd i = 0.
Definition cn_ext_L (fuel : nat) (count : Z) (s : list Z) (i : Z * Z) :=
  iso2022_cn_ext_mbtowc_loop fuel count (Z.land (fst i) 255) (Z.land (Z.shiftr (fst i) 8) 255) (Z.land (Z.shiftr (fst i) 16) 255) (Z.shiftr (fst i) 24) s (Z.to_nat count + length s) None (snd i).
Lemma cn_ext_L_eq : forall fuel count s s1 s2 s3 s4 ibo, 0 <= s1 <= 1 -> 0 <= s2 <= 3 -> 0 <= s3 <= 1 -> 0 <= s4 <= 5 -> cn_ext_L fuel count s (Z.lor (Z.lor (Z.lor (Z.shiftl s4 24) (Z.shiftl s3 16)) (Z.shiftl s2 8)) s1, ibo) =
  iso2022_cn_ext_mbtowc_loop fuel count s1 s2 s3 s4 s (Z.to_nat count + length s) None ibo.
Proof.
  intros fuel count s s1 s2 s3 s4 ibo H0 H1 H2 H3. unfold cn_ext_L. cbn [fst snd].
  replace (Z.land (Z.lor (Z.lor (Z.lor (Z.shiftl s4 24) (Z.shiftl s3 16)) (Z.shiftl s2 8)) s1) 255) with s1 by unpack_.
  replace (Z.land (Z.shiftr (Z.lor (Z.lor (Z.lor (Z.shiftl s4 24) (Z.shiftl s3 16)) (Z.shiftl s2 8)) s1) 8) 255) with s2 by unpack_.
  replace (Z.land (Z.shiftr (Z.lor (Z.lor (Z.lor (Z.shiftl s4 24) (Z.shiftl s3 16)) (Z.shiftl s2 8)) s1) 16) 255) with s3 by unpack_.
  replace (Z.shiftr (Z.lor (Z.lor (Z.lor (Z.shiftl s4 24) (Z.shiftl s3 16)) (Z.shiftl s2 8)) s1) 24) with s4 by unpack_.
  reflexivity.
Qed.
Lemma cn_ext_L_S : forall fuel count s s1 s2 s3 s4 ibo, 0 <= s1 <= 1 -> 0 <= s2 <= 3 -> 0 <= s3 <= 1 -> 0 <= s4 <= 5 -> cn_ext_L (S fuel) count s (Z.lor (Z.lor (Z.lor (Z.shiftl s4 24) (Z.shiftl s3 16)) (Z.shiftl s2 8)) s1, ibo) =
  ltac:(let T := type of (iso2022_cn_ext_mbtowc_loop_S fuel count s1 s2 s3 s4 s (Z.to_nat count + length s) None ibo) in lazymatch T with _ = ?b => exact b end).
Proof. intros. rewrite cn_ext_L_eq by assumption. exact (iso2022_cn_ext_mbtowc_loop_S fuel count s1 s2 s3 s4 s (Z.to_nat count + length s) None ibo). Qed.
Lemma cn_ext_mb : forall s n ist ibo, iso2022_cn_ext_mbtowc s n ist ibo = iso2022_cn_ext_mbtowc_loop (8 + 4 * n) 0 (Z.land ist 255) (Z.land (Z.shiftr ist 8) 255) (Z.land (Z.shiftr ist 16) 255) (Z.shiftr ist 24) s n None ibo.
Proof. reflexivity. Qed.
Lemma cn_ext_f_mb : f_mb enc_iso2022_cn_ext = iso2022_cn_ext_mbtowc.
Proof. reflexivity. Qed.
Lemma cn_ext_He : forall s i, f_mb enc_iso2022_cn_ext s (length s) (fst i) (snd i) = cn_ext_L (8 + 4 * length s) 0 s i.
Proof. intros s i. rewrite cn_ext_f_mb, cn_ext_mb. unfold cn_ext_L. change (Z.to_nat 0 + length s)%nat with (length s). reflexivity. Qed.
Ltac sx_stop m ::= lazymatch m with iso2022_cn_ext_mbtowc_loop _ _ _ _ _ _ _ _ _ _ => idtac | _ => fail end.
Ltac h_open ::= eapply holds_same; [apply cn_ext_L_S; lia|]; cbn [length].
Ltac h_unL H ::= rewrite cn_ext_L_eq in H by lia.
Ltac h_count m ::= lazymatch m with iso2022_cn_ext_mbtowc_loop _ ?c _ _ _ _ _ _ _ _ => c end.
Ltac h_state m ::= lazymatch m with iso2022_cn_ext_mbtowc_loop _ _ ?s1 ?s2 ?s3 ?s4 _ _ _ ?ibo => constr:((Z.lor (Z.lor (Z.lor (Z.shiftl s4 24) (Z.shiftl s3 16)) (Z.shiftl s2 8)) s1, ibo)) end.
Ltac h_inv ::= solve [split; [cbn [fst]; eexists _, _, _, _; split; [reflexivity|lia]|reflexivity]].
Lemma dec_iso2022_cn_ext_ok : dec_ok enc_iso2022_cn_ext 1 cn_ext_dinv (fun _ => false) ucs4 /\ dec_stable enc_iso2022_cn_ext cn_ext_dinv.
Proof.
  iso_prove cn_ext_L cn_ext_He cn_ext_ist cn_ext_ist_0; destruct A as (s1 & s2 & s3 & s4 & -> & A); iso_bytes 27 w4.
  all: h_go.
Qed.

