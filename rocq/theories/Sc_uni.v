(** The decoders of UCS-2, UTF-16, UTF-32 (with byte order marks), Java and GB18030 store only scalar values. *)
From Coq Require Import ZArith List Bool Lia.
From Verif Require Import Base UniSpec Contract UniProps Rng ScLib Sc_sets Conv_uni Conv_set_ko Conv_set_zh Conv_set_ja Conv_sb Conv_cjk.
Import ListNotations.
Open Scope Z_scope.

Lemma shl8 : forall a, Z.shiftl a 8 = a * 256. Proof. intros a. now rewrite Z.shiftl_mul_pow2 by lia. Qed.
Lemma shl10 : forall a, Z.shiftl a 10 = a * 1024. Proof. intros a. now rewrite Z.shiftl_mul_pow2 by lia. Qed.
Lemma shl16 : forall a, Z.shiftl a 16 = a * 65536. Proof. intros a. now rewrite Z.shiftl_mul_pow2 by lia. Qed.
Lemma shl24 : forall a, Z.shiftl a 24 = a * 16777216. Proof. intros a. now rewrite Z.shiftl_mul_pow2 by lia. Qed.
Ltac conds := repeat match goal with H : (if ?a then _ else _) = _ |- _ => destruct a eqn:?; try discriminate H | H : negb _ = true |- _ => apply negb_true_iff in H | H : negb _ = false |- _ => apply negb_false_iff in H end.
Ltac arith := cbn [scp p2 p4 snd fst okw]; conds; rewrite ?shl8, ?shl10, ?shl16, ?shl24 in *; unfold scalar, u32, LIM in *; rewrite ?Z.mod_small by lia; lia.
Ltac bs := solve [repeat apply bytes_skipn; assumption].

Lemma sc_ucs2_loop : forall fuel,
  (forall count st s n pwc ist, bytes s -> okw pwc -> scp p4 (ucs2_mbtowc_loop fuel count st s n pwc ist)) /\
  (forall count st wc s n pwc ist, 0 <= wc < 65536 -> bytes s -> okw pwc -> scp p4 (ucs2_mbtowc_j fuel count st wc s n pwc ist)) /\
  (forall count st s n pwc ist, bytes s -> okw pwc -> scp p4 (ucs2_mbtowc_j2 fuel count st s n pwc ist)).
Proof.
  induction fuel as [|fuel (IH0 & IH1 & IH2)]; [repeat split; intros; exact I|].
  repeat split; intros; cbn [ucs2_mbtowc_loop ucs2_mbtowc_j ucs2_mbtowc_j2];
    repeat sstep ltac:(first [apply IH0; [bs|solve [leaf]] | apply IH1; [arith|bs|solve [leaf]] | apply IH2; [bs|solve [leaf]]]); arith.
Qed.
Lemma sc_ucs2 : forall s n ist ibo, bytes s -> scp p4 (ucs2_mbtowc s n ist ibo).
Proof. intros s n ist ibo B. unfold ucs2_mbtowc. cbv zeta. apply (proj1 (sc_ucs2_loop _)); [exact B|exact I]. Qed.
Lemma sc_utf16_loop : forall fuel,
  (forall count st s n pwc ist, bytes s -> okw pwc -> scp p4 (utf16_mbtowc_loop fuel count st s n pwc ist)) /\
  (forall count st wc s n pwc ist, 0 <= wc < 65536 -> bytes s -> okw pwc -> scp p4 (utf16_mbtowc_j fuel count st wc s n pwc ist)) /\
  (forall count st s n pwc ist, bytes s -> okw pwc -> scp p4 (utf16_mbtowc_j3 fuel count st s n pwc ist)).
Proof.
  induction fuel as [|fuel (IH0 & IH1 & IH2)]; [repeat split; intros; exact I|].
  repeat split; intros; cbn [utf16_mbtowc_loop utf16_mbtowc_j utf16_mbtowc_j3];
    repeat sstep ltac:(first [apply IH0; [bs|solve [leaf]] | apply IH1; [arith|bs|solve [leaf]] | apply IH2; [bs|solve [leaf]]]); arith.
Qed.
Lemma sc_utf16 : forall s n ist ibo, bytes s -> scp p4 (utf16_mbtowc s n ist ibo).
Proof. intros s n ist ibo B. unfold utf16_mbtowc. cbv zeta. apply (proj1 (sc_utf16_loop _)); [exact B|exact I]. Qed.
Lemma sc_utf32_loop : forall fuel,
  (forall count st s n pwc ist, bytes s -> okw pwc -> scp p4 (utf32_mbtowc_loop fuel count st s n pwc ist)) /\
  (forall count st wc s n pwc ist, 0 <= wc -> bytes s -> okw pwc -> scp p4 (utf32_mbtowc_j fuel count st wc s n pwc ist)) /\
  (forall count st s n pwc ist, bytes s -> okw pwc -> scp p4 (utf32_mbtowc_j2 fuel count st s n pwc ist)).
Proof.
  induction fuel as [|fuel (IH0 & IH1 & IH2)]; [repeat split; intros; exact I|].
  repeat split; intros; cbn [utf32_mbtowc_loop utf32_mbtowc_j utf32_mbtowc_j2];
    repeat sstep ltac:(first [apply IH0; [bs|solve [leaf]] | apply IH1; [arith|bs|solve [leaf]] | apply IH2; [bs|solve [leaf]]]); arith.
Qed.
Lemma sc_utf32 : forall s n ist ibo, bytes s -> scp p4 (utf32_mbtowc s n ist ibo).
Proof. intros s n ist ibo B. unfold utf32_mbtowc. cbv zeta. apply (proj1 (sc_utf32_loop _)); [exact B|exact I]. Qed.
(** A digit of a \u escape: the letters G to Z count as well, so a value may have 18 bits. *)
Lemma lor18 : forall a c e, 0 <= a < 262144 -> 0 <= c < 64 -> 0 <= e <= 12 -> 0 <= Z.lor a (Z.shiftl c e) < 262144.
Proof.
  intros a c e A C E. assert (N : 0 <= Z.lor a (Z.shiftl c e)) by (apply Z.lor_nonneg; split; [lia|apply Z.shiftl_nonneg; lia]). split; [exact N|].
  destruct (Z.eq_dec (Z.lor a (Z.shiftl c e)) 0) as [->|Z0]; [lia|]. change 262144 with (2 ^ 18). apply Z.log2_lt_pow2; [lia|].
  rewrite Z.log2_lor by (try (apply Z.shiftl_nonneg); lia). apply Z.max_lub_lt.
  - destruct (Z.eq_dec a 0) as [->|]; [reflexivity|]. apply Z.log2_lt_pow2; [lia|]. change (2 ^ 18) with 262144. lia.
  - destruct (Z.eq_dec c 0) as [->|]; [now rewrite Z.shiftl_0_l|]. rewrite Z.log2_shiftl by lia. assert (Z.log2 c < 6) by (apply Z.log2_lt_pow2; [lia|change (2 ^ 6) with 64; lia]). lia.
Qed.
Lemma sc_java_loop2 : forall fuel,
  (forall i wc wc2 s n pwc, 8 <= i <= 12 -> 0xd800 <= wc < 0xdc00 -> bytes s -> okw pwc -> scp p2 (java_mbtowc_loop2 fuel i wc wc2 s n pwc)) /\
  (forall c i wc wc2 s n pwc, 8 <= i < 12 -> 0xd800 <= wc < 0xdc00 -> bytes s -> okw pwc -> scp p2 (java_mbtowc_j2 fuel c i wc wc2 s n pwc)).
Proof.
  induction fuel as [|fuel (IH0 & IH1)]; [repeat split; intros; exact I|].
  repeat split; intros; cbn [java_mbtowc_loop2 java_mbtowc_j2];
    repeat sstep ltac:(first [apply IH0; [lia|lia|bs|solve [leaf]] | apply IH1; [lia|lia|bs|solve [leaf]]]); arith.
Qed.
Lemma sc_java_loop : forall fuel,
  (forall i wc s n pwc, 2 <= i <= 6 -> 0 <= wc < 262144 -> bytes s -> okw pwc -> scp p2 (java_mbtowc_loop fuel i wc s n pwc)) /\
  (forall c i wc s n pwc, 2 <= i < 6 -> 0 <= c < 64 -> 0 <= wc < 262144 -> bytes s -> okw pwc -> scp p2 (java_mbtowc_j fuel c i wc s n pwc)).
Proof.
  induction fuel as [|fuel (IH0 & IH1)]; [repeat split; intros; exact I|].
  repeat split; intros; cbn [java_mbtowc_loop java_mbtowc_j];
    repeat sstep ltac:(first [apply IH0; [lia|apply lor18; lia|bs|solve [leaf]] | apply IH1; [lia|conds; lia|lia|bs|solve [leaf]] | apply (proj1 (sc_java_loop2 _)); [lia|conds; lia|bs|solve [leaf]]]); arith.
Qed.
Lemma sc_java : forall s n, bytes s -> scp p2 (java_mbtowc s n).
Proof. intros s n B. unfold java_mbtowc. repeat sstep ltac:(apply (proj1 (sc_java_loop _)); [lia|lia|bs|exact I]). Qed.
