(** Property C35: C99 and Java escapes. *)
From Coq Require Import ZArith List Bool Lia.
From Verif Require Import Base Indexes Loop Contract LoopLib LoopProps Spec SpecProps Conv_uni Encodings Api AllOk Public Demo UniSpec UniProps C_iconv C_api C_uni Whole C_comb
  EncLib Unroll Ok_esc Ok_utf7e Round.
Import ListNotations.
Open Scope Z_scope.

(** The hexadecimal digit of value v, and the k digits of c. *)
Definition hexd (v : Z) : Z := if v <? 10 then 48 + v else 87 + v.
Fixpoint hexds (k : nat) (c : Z) : list Z := match k with O => [] | S k => hexd (c / 16 ^ Z.of_nat k mod 16) :: hexds k c end.
Lemma hexv_hexd : forall v, 0 <= v < 16 -> hexv (hexd v) = Some v.
Proof.
  intros v H. assert (X : existsb (fun w => w =? v) (map Z.of_nat (seq 0 16)) = true).
  { apply existsb_exists. exists v. split; [|lia]. apply in_map_iff. exists (Z.to_nat v). split; [lia|apply in_seq; lia]. }
  apply existsb_exists in X. destruct X as (w & X & E). apply Z.eqb_eq in E. subst w. cbn in X.
  repeat (destruct X as [<-|X]; [reflexivity|]). destruct X.
Qed.
Lemma nib : forall c k, 0 <= k -> Z.land (Z.shiftr c (4 * k)) 0xf = c / 16 ^ k mod 16.
Proof.
  intros c k K. change 0xf with (Z.ones 4). rewrite Z.land_ones by lia. rewrite Z.shiftr_div_pow2 by lia. rewrite Z.pow_mul_r by lia. reflexivity.
Qed.
Lemma hexd_eq : forall i, (if i <? 0xa then 0x30 + i else 0x57 + i) = hexd i.
Proof. reflexivity. Qed.
(** What the encoders write. *)
Definition c99_of (c : Z) : list Z := if c <? 160 then [c] else if c <? 65536 then 92 :: 117 :: hexds 4 c else 92 :: 85 :: hexds 8 c.
Definition java_of (c : Z) : list Z := if c <? 128 then [c] else if c <? 65536 then 92 :: 117 :: hexds 4 c
  else 92 :: 117 :: hexds 4 (55296 + (c - 65536) / 1024) ++ 92 :: 117 :: hexds 4 (56320 + (c - 65536) mod 1024).
Lemma hexd_byte : forall v, 0 <= v < 16 -> 0 <= hexd v < 128.
Proof. intros v H. unfold hexd. destruct (Z.ltb_spec v 10); lia. Qed.
Lemma hexds_ascii : forall k c, Forall (fun b => 0 <= b < 128) (hexds k c).
Proof. induction k as [|k IH]; intros c; cbn; constructor; auto. apply hexd_byte, Z.mod_pos_bound. lia. Qed.
Lemma hexds_len : forall k c, length (hexds k c) = k.
Proof. induction k as [|k IH]; intros c; cbn; auto. Qed.
Lemma ascii_bytes : forall l, Forall (fun b => 0 <= b < 128) l -> bytes l.
Proof. intros l H. eapply Forall_impl; [|exact H]. cbn. unfold byte. intros; lia. Qed.
Lemma c99_loop : forall k m result c ro r, c99_wctomb_loop (S (k + m)) (Z.of_nat k - 1) result c ro r = Ok (result, logof ro (hexds k c) r).
Proof.
  induction k as [|k IH]; intros m result c ro r.
  - reflexivity.
  - change (S (S k + m)) with (S (S (k + m))). remember (S (k + m)) as F. cbn [c99_wctomb_loop]. cbv zeta.
    destruct (Z.geb_spec (Z.of_nat (S k) - 1) 0); [|lia]. rewrite nib by lia. rewrite hexd_eq.
    replace (Z.of_nat (S k) - 1 - 1) with (Z.of_nat k - 1) by lia. subst F. rewrite IH. cbn [hexds logof].
    replace (Z.of_nat (S k) - 1) with (Z.of_nat k) by lia. rewrite Nat.add_1_r. reflexivity.
Qed.
Lemma c99_emit : forall c o, 0 <= c -> emit enc_c99 c o = Some (c99_of c, o).
Proof.
  intros c o C. unfold emit. cbn [f_wc enc_c99]. unfold wc0, c99_wctomb, c99_of. destruct (c <? 0xa0); [reflexivity|]. change 0x10000 with 65536.
  destruct (c <? 65536); unfold c99_wctomb_j; cbv zeta.
  - change (Nat.leb (Z.to_nat 6) 16) with true. cbv iota. change 64%nat with (S (4 + 59)). change (6 - 3) with (Z.of_nat 4 - 1). rewrite c99_loop.
    reflexivity.
  - change (Nat.leb (Z.to_nat 10) 16) with true. cbv iota. change 64%nat with (S (8 + 55)). change (0xa - 3) with (Z.of_nat 8 - 1). rewrite c99_loop.
    reflexivity.
Qed.
Lemma java_emit : forall c o, 0 <= c < 1114112 -> emit enc_java c o = Some (java_of c, o).
Proof.
  intros c o C. unfold emit. cbn [f_wc enc_java]. unfold wc0, java_wctomb, java_of. destruct (c <? 0x80); [reflexivity|]. change 0x10000 with 65536. change 0x110000 with 1114112.
  cbv zeta. destruct (c <? 65536).
  - change (Nat.leb 6 16) with true. cbv iota. cbn [bind]. change (6 <? 0) with false. cbv iota. change (Z.land c 0xf) with (Z.land (Z.shiftr c (4 * 0)) 0xf).
    change (Z.shiftr c 12) with (Z.shiftr c (4 * 3)). change (Z.shiftr c 8) with (Z.shiftr c (4 * 2)). change (Z.shiftr c 4) with (Z.shiftr c (4 * 1)).
    rewrite !nib by lia. rewrite !hexd_eq. reflexivity.
  - rewrite (proj2 (Z.ltb_lt c 1114112)) by lia. change (Nat.leb 12 16) with true. cbv iota. cbn [bind]. change (12 <? 0) with false. cbv iota.
    replace (Z.shiftr (c - 65536) 0xa) with ((c - 65536) / 1024) by (rewrite Z.shiftr_div_pow2 by lia; reflexivity).
    replace (Z.land (c - 65536) 0x3ff) with ((c - 65536) mod 1024) by (change 0x3ff with (Z.ones 10); rewrite Z.land_ones by lia; reflexivity).
    generalize (0xd800 + (c - 65536) / 1024) as x, (0xdc00 + (c - 65536) mod 1024) as y. intros x y.
    change (Z.land x 0xf) with (Z.land (Z.shiftr x (4 * 0)) 0xf). change (Z.land y 0xf) with (Z.land (Z.shiftr y (4 * 0)) 0xf).
    change (Z.shiftr x 12) with (Z.shiftr x (4 * 3)). change (Z.shiftr x 8) with (Z.shiftr x (4 * 2)). change (Z.shiftr x 4) with (Z.shiftr x (4 * 1)).
    change (Z.shiftr y 12) with (Z.shiftr y (4 * 3)). change (Z.shiftr y 8) with (Z.shiftr y (4 * 2)). change (Z.shiftr y 4) with (Z.shiftr y (4 * 1)).
    rewrite !nib by lia. rewrite !hexd_eq. reflexivity.
Qed.

(** Reading digits: the value read so far is the upper part of c. *)
Lemma lor_digit : forall c k, 0 <= c -> 0 <= k -> Z.lor (c / 16 ^ (k + 1) * 16 ^ (k + 1)) (Z.shiftl (c / 16 ^ k mod 16) (4 * k)) = c / 16 ^ k * 16 ^ k.
Proof.
  intros c k C K. rewrite Z.shiftl_mul_pow2 by lia. rewrite Z.pow_mul_r by lia. change (2 ^ 4) with 16.
  assert (P : 0 < 16 ^ k) by (apply Z.pow_pos_nonneg; lia).
  assert (E : c / 16 ^ (k + 1) = c / 16 ^ k / 16) by (rewrite Z.pow_add_r by lia; change (16 ^ 1) with 16; rewrite Z.div_div by lia; reflexivity).
  rewrite E. rewrite (lor_mul _ _ (4 * (k + 1))).
  - rewrite Z.pow_add_r by lia. change (16 ^ 1) with 16. pose proof (Z.div_mod (c / 16 ^ k) 16 ltac:(lia)). nia.
  - lia.
  - rewrite Z.pow_mul_r by lia. reflexivity.
  - rewrite Z.pow_add_r by lia. change (16 ^ 1) with 16. pose proof (Z.mod_pos_bound (c / 16 ^ k) 16 ltac:(lia)). nia.
Qed.
Lemma nth_hexds : forall j k c, (j < k)%nat -> nth_error (hexds k c) j = Some (hexd (c / 16 ^ (Z.of_nat (k - 1 - j)) mod 16)).
Proof.
  induction j as [|j IH]; intros [|k] c H; try lia; cbn [hexds nth_error].
  - replace (S k - 1 - 0)%nat with k by lia. reflexivity.
  - rewrite IH by lia. replace (S k - 1 - S j)%nat with (k - 1 - j)%nat by lia. reflexivity.
Qed.

Section Reading.
Variables (s : list Z) (c k0 : Z) (k : nat) (n : nat).
Hypothesis C : 0 <= c < 16 ^ Z.of_nat k.
(** The digits of c start at offset k0 of s. *)
Hypothesis D : forall j, (j < k)%nat -> nth_error s (Z.to_nat (k0 + Z.of_nat j)) = Some (hexd (c / 16 ^ (Z.of_nat (k - 1 - j)) mod 16)).
Hypothesis K0 : 0 <= k0.
Hypothesis N : (Z.to_nat k0 + k <= n)%nat.
Lemma digit_at : forall m, (S m <= k)%nat -> nth_error s (Z.to_nat (k0 + Z.of_nat (k - S m))) = Some (hexd (c / 16 ^ Z.of_nat m mod 16)) /\
  hexv (hexd (c / 16 ^ Z.of_nat m mod 16)) = Some (c / 16 ^ Z.of_nat m mod 16) /\ 0 <= c / 16 ^ Z.of_nat m mod 16 < 16.
Proof.
  intros m M. pose proof (Z.mod_pos_bound (c / 16 ^ Z.of_nat m) 16 ltac:(lia)) as B. split; [|split; [now apply hexv_hexd|exact B]].
  rewrite D by lia. replace (k - 1 - (k - S m))%nat with m by lia. reflexivity.
Qed.
Lemma next_digit : forall m, (S m <= k)%nat -> k0 + Z.of_nat (k - S m) + 1 = k0 + Z.of_nat (k - m) /\
  Z.lor (c / 16 ^ Z.of_nat (S m) * 16 ^ Z.of_nat (S m)) (Z.shiftl (c / 16 ^ Z.of_nat m mod 16) (4 * Z.of_nat m)) = c / 16 ^ Z.of_nat m * 16 ^ Z.of_nat m.
Proof. intros m M. split; [lia|]. replace (Z.of_nat (S m)) with (Z.of_nat m + 1) by lia. apply lor_digit; lia. Qed.
Lemma no_digit_yet : c / 16 ^ Z.of_nat k * 16 ^ Z.of_nat k = 0.
Proof using C. clear - C. rewrite Z.div_small by lia. reflexivity. Qed.
Lemma all_digits : c / 16 ^ Z.of_nat 0 * 16 ^ Z.of_nat 0 = c.
Proof. cbn. rewrite Z.div_1_r. lia. Qed.
Lemma c99_read : forall m F, k0 + Z.of_nat k = 6 -> (m <= k)%nat ->
  c99_mbtowc_loop (2 * m + F) (k0 + Z.of_nat (k - m)) (c / 16 ^ Z.of_nat m * 16 ^ Z.of_nat m) s n None = c99_mbtowc_loop F 6 c s n None.
Proof.
  induction m as [|m IH]; intros F E M.
  - rewrite all_digits, Nat.sub_0_r, E. reflexivity.
  - destruct (digit_at m M) as (X1 & X2 & X3). destruct (next_digit m M) as (Y1 & Y2).
    replace (2 * S m + F)%nat with (S (S (2 * m + F))) by lia. erewrite c99_step; [|lia|lia|exact X1|exact X2].
    rewrite Y1. replace (4 * (5 - (k0 + Z.of_nat (k - S m)))) with (4 * Z.of_nat m) by lia. rewrite Y2. apply IH; lia.
Qed.
Lemma c99_read2 : forall m F, k0 + Z.of_nat k = 10 -> (k <= 8)%nat -> (m <= k)%nat ->
  c99_mbtowc_loop2 (2 * m + F) (k0 + Z.of_nat (k - m)) (c / 16 ^ Z.of_nat m * 16 ^ Z.of_nat m) s n None = c99_mbtowc_loop2 F 10 c s n None.
Proof.
  induction m as [|m IH]; intros F E K8 M.
  - rewrite all_digits, Nat.sub_0_r, E. reflexivity.
  - destruct (digit_at m M) as (X1 & X2 & X3). destruct (next_digit m M) as (Y1 & Y2).
    replace (2 * S m + F)%nat with (S (S (2 * m + F))) by lia. erewrite c99_step2; [|lia|lia|exact X1|exact X2].
    rewrite Y1. replace (4 * (9 - (k0 + Z.of_nat (k - S m)))) with (4 * Z.of_nat m) by lia.
    assert (U : forall x, 0 <= x < 16 -> u32 (Z.shiftl x (4 * Z.of_nat m)) = Z.shiftl x (4 * Z.of_nat m)).
    { intros x X. rewrite Z.shiftl_mul_pow2 by lia. apply Z.mod_small. assert (2 ^ (4 * Z.of_nat m) <= 2 ^ 28) by (apply Z.pow_le_mono_r; lia).
      assert (0 < 2 ^ (4 * Z.of_nat m)) by (apply Z.pow_pos_nonneg; lia). change 4294967296 with (16 * 2 ^ 28). nia. }
    rewrite U by exact X3. rewrite Y2. apply IH; lia.
Qed.
Lemma java_read : forall m F, k0 + Z.of_nat k = 6 -> (m <= k)%nat ->
  java_mbtowc_loop (2 * m + F) (k0 + Z.of_nat (k - m)) (c / 16 ^ Z.of_nat m * 16 ^ Z.of_nat m) s n None = java_mbtowc_loop F 6 c s n None.
Proof.
  induction m as [|m IH]; intros F E M.
  - rewrite all_digits, Nat.sub_0_r, E. reflexivity.
  - destruct (digit_at m M) as (X1 & X2 & X3). destruct (next_digit m M) as (Y1 & Y2).
    replace (2 * S m + F)%nat with (S (S (2 * m + F))) by lia. erewrite java_step; [|lia|lia|exact X1|exact X2].
    rewrite Y1. replace (4 * (5 - (k0 + Z.of_nat (k - S m)))) with (4 * Z.of_nat m) by lia. rewrite Y2. apply IH; lia.
Qed.
Lemma java_read2 : forall m F wc1, k0 + Z.of_nat k = 12 -> (m <= k)%nat ->
  java_mbtowc_loop2 (2 * m + F) (k0 + Z.of_nat (k - m)) wc1 (c / 16 ^ Z.of_nat m * 16 ^ Z.of_nat m) s n None = java_mbtowc_loop2 F 12 wc1 c s n None.
Proof.
  induction m as [|m IH]; intros F wc1 E M.
  - rewrite all_digits, Nat.sub_0_r, E. reflexivity.
  - destruct (digit_at m M) as (X1 & X2 & X3). destruct (next_digit m M) as (Y1 & Y2).
    replace (2 * S m + F)%nat with (S (S (2 * m + F))) by lia. erewrite java_step2; [|lia|lia|exact X1|exact X2].
    rewrite Y1. replace (4 * (11 - (k0 + Z.of_nat (k - S m)))) with (4 * Z.of_nat m) by lia. rewrite Y2. apply IH; lia.
Qed.
End Reading.
Lemma digits_at : forall pre k c t j, (j < k)%nat ->
  nth_error (pre ++ hexds k c ++ t) (Z.to_nat (Z.of_nat (length pre) + Z.of_nat j)) = Some (hexd (c / 16 ^ (Z.of_nat (k - 1 - j)) mod 16)).
Proof.
  intros pre k c t j J. replace (Z.to_nat (Z.of_nat (length pre) + Z.of_nat j)) with (length pre + j)%nat by lia.
  rewrite nth_error_app2 by lia. replace (length pre + j - length pre)%nat with j by lia.
  rewrite nth_error_app1 by (rewrite hexds_len; lia). now apply nth_hexds.
Qed.
Lemma c99_dec : forall c t i, scalar c = true -> c <> 92 -> dec enc_c99 (c99_of c ++ t) i = Some (DChar (length (c99_of c)) c i).
Proof.
  intros c t (a, b) S N. assert (R : 0 <= c < 55296 \/ 57344 <= c < 1114112) by (unfold scalar in S; lia).
  unfold dec. cbn [f_mb enc_c99 fst snd]. unfold mb0. unfold c99_of. destruct (Z.ltb_spec c 160).
  - cbn [app length]. unfold c99_mbtowc, Base.rd. cbn [nth_error]. destruct (Z.ltb_spec c 0xa0); [|lia]. rewrite (proj2 (Z.eqb_neq c 0x5c)) by lia. reflexivity.
  - destruct (Z.ltb_spec c 65536).
    + change ((92 :: 117 :: hexds 4 c) ++ t) with ([92; 117] ++ hexds 4 c ++ t). set (s := [92; 117] ++ hexds 4 c ++ t). set (n := length s).
      assert (L : (6 <= n)%nat) by (unfold n, s; rewrite !app_length, hexds_len; cbn; lia).
      unfold c99_mbtowc. unfold Base.rd. change (nth_error s 0) with (Some 92). change (nth_error s 1) with (Some 117). cbv iota beta zeta.
      change (92 <? 0xa0) with true. change (negb (92 =? 0x5c)) with false. cbv iota. destruct (Nat.ltb_spec n 2); [lia|]. change (117 =? 0x75) with true. cbv iota.
      pose proof (c99_read s c 2 4 n ltac:(cbn; lia) ltac:(exact (digits_at [92; 117] 4 c t)) ltac:(lia) 4 56 eq_refl ltac:(lia)) as Q.
      rewrite (no_digit_yet c 4) in Q by (cbn; lia). change (2 * 4 + 56)%nat with 64%nat in Q. change (2 + Z.of_nat (4 - 4)) with 2 in Q. rewrite Q.
      rewrite c99_mbtowc_loop_S. change (6 <? 6) with false. cbv iota. destruct (Z.geb_spec c 0xa0); [|lia].
      assert (E : negb ((c >=? 0xd800) &&& (c <? 0xe000)) = true) by (destruct (Z.geb_spec c 0xd800), (Z.ltb_spec c 0xe000); try reflexivity; lia).
      rewrite E. reflexivity.
    + change ((92 :: 85 :: hexds 8 c) ++ t) with ([92; 85] ++ hexds 8 c ++ t). set (s := [92; 85] ++ hexds 8 c ++ t). set (n := length s).
      assert (L : (10 <= n)%nat) by (unfold n, s; rewrite !app_length, hexds_len; cbn; lia).
      unfold c99_mbtowc. unfold Base.rd. change (nth_error s 0) with (Some 92). change (nth_error s 1) with (Some 85). cbv iota beta zeta.
      change (92 <? 0xa0) with true. change (negb (92 =? 0x5c)) with false. cbv iota. destruct (Nat.ltb_spec n 2); [lia|]. change (85 =? 0x75) with false. change (85 =? 0x55) with true. cbv iota.
      pose proof (c99_read2 s c 2 8 n ltac:(cbn; lia) ltac:(exact (digits_at [92; 85] 8 c t)) ltac:(lia) 8 48 eq_refl ltac:(lia) ltac:(lia)) as Q.
      rewrite (no_digit_yet c 8) in Q by (cbn; lia). change (2 * 8 + 48)%nat with 64%nat in Q. change (2 + Z.of_nat (8 - 8)) with 2 in Q. rewrite Q.
      rewrite c99_mbtowc_loop2_S. change (10 <? 10) with false. cbv iota. destruct (Z.geb_spec c 0xa0); [|lia].
      assert (E : negb ((c >=? 0xd800) &&& (c <? 0xe000)) = true) by (destruct (Z.geb_spec c 0xd800), (Z.ltb_spec c 0xe000); try reflexivity; lia).
      rewrite E. reflexivity.
Qed.
Lemma java_dec : forall c t i, scalar c = true -> c <> 92 -> dec enc_java (java_of c ++ t) i = Some (DChar (length (java_of c)) c i).
Proof.
  intros c t (a, b) S N. assert (R : 0 <= c < 55296 \/ 57344 <= c < 1114112) by (unfold scalar in S; lia).
  unfold dec. cbn [f_mb enc_java fst snd]. unfold mb0. unfold java_of. destruct (Z.ltb_spec c 128).
  - cbn [app length]. unfold java_mbtowc, Base.rd. cbn [nth_error]. rewrite (proj2 (Z.eqb_neq c 0x5c)) by lia. reflexivity.
  - destruct (Z.ltb_spec c 65536).
    + change ((92 :: 117 :: hexds 4 c) ++ t) with ([92; 117] ++ hexds 4 c ++ t). set (s := [92; 117] ++ hexds 4 c ++ t). set (n := length s).
      assert (L : (6 <= n)%nat) by (unfold n, s; rewrite !app_length, hexds_len; cbn; lia).
      unfold java_mbtowc. unfold Base.rd. change (nth_error s 0) with (Some 92). change (nth_error s 1) with (Some 117). cbv iota beta zeta.
      change (negb (92 =? 0x5c)) with false. cbv iota. destruct (Nat.ltb_spec n 2); [lia|]. change (negb (117 =? 0x75)) with false. cbv iota.
      pose proof (java_read s c 2 4 n ltac:(cbn; lia) ltac:(exact (digits_at [92; 117] 4 c t)) ltac:(lia) 4 56 eq_refl ltac:(lia)) as Q.
      rewrite (no_digit_yet c 4) in Q by (cbn; lia). change (2 * 4 + 56)%nat with 64%nat in Q. change (2 + Z.of_nat (4 - 4)) with 2 in Q. rewrite Q.
      rewrite java_mbtowc_loop_S. change (6 <? 6) with false. cbv iota.
      assert (E : negb ((c >=? 0xd800) &&& (c <? 0xe000)) = true) by (destruct (Z.geb_spec c 0xd800), (Z.ltb_spec c 0xe000); try reflexivity; lia).
      rewrite E. reflexivity.
    + set (x := 55296 + (c - 65536) / 1024). set (y := 56320 + (c - 65536) mod 1024).
      assert (X : 55296 <= x < 56320) by (unfold x; eucl). assert (Y : 56320 <= y < 57344) by (unfold y; eucl).
      assert (XY : c = 65536 + (x - 55296) * 1024 + (y - 56320)) by (unfold x, y; eucl). clearbody x y.
      assert (Len : length (92 :: 117 :: hexds 4 x ++ 92 :: 117 :: hexds 4 y) = 12%nat) by reflexivity. rewrite Len.
      replace ((92 :: 117 :: hexds 4 x ++ 92 :: 117 :: hexds 4 y) ++ t) with ([92; 117] ++ hexds 4 x ++ ([92; 117] ++ hexds 4 y ++ t)) by (cbn [app]; rewrite <- !app_assoc; reflexivity).
      set (s := [92; 117] ++ hexds 4 x ++ ([92; 117] ++ hexds 4 y ++ t)). set (n := length s).
      assert (L : (12 <= n)%nat) by (unfold n, s; rewrite !app_length, !hexds_len; cbn; lia).
      unfold java_mbtowc. unfold Base.rd. change (nth_error s 0) with (Some 92). change (nth_error s 1) with (Some 117). cbv iota beta zeta.
      change (negb (92 =? 0x5c)) with false. cbv iota. destruct (Nat.ltb_spec n 2); [lia|]. change (negb (117 =? 0x75)) with false. cbv iota.
      pose proof (java_read s x 2 4 n ltac:(cbn; lia) ltac:(exact (digits_at [92; 117] 4 x _)) ltac:(lia) 4 56 eq_refl ltac:(lia)) as Q.
      rewrite (no_digit_yet x 4) in Q by (cbn; lia). change (2 * 4 + 56)%nat with 64%nat in Q. change (2 + Z.of_nat (4 - 4)) with 2 in Q. rewrite Q.
      rewrite java_mbtowc_loop_S. change (6 <? 6) with false. cbv iota.
      destruct (Z.geb_spec x 0xd800); [|lia]. destruct (Z.ltb_spec x 0xe000); [|lia]. cbn [negb]. destruct (Z.geb_spec x 0xdc00); [lia|].
      destruct (Nat.ltb_spec n 7); [lia|]. unfold Base.rd. change (nth_error s 6) with (Some 92). cbv iota beta. change (negb (92 =? 0x5c)) with false. cbv iota.
      destruct (Nat.ltb_spec n 8); [lia|]. change (nth_error s 7) with (Some 117). cbv iota beta. change (negb (117 =? 0x75)) with false. cbv iota zeta.
      pose proof (java_read2 s y 8 4 n ltac:(cbn; lia) ltac:(exact (digits_at ([92; 117] ++ hexds 4 x ++ [92; 117]) 4 y t)) ltac:(lia) 4 56 x eq_refl ltac:(lia)) as Q2.
      rewrite (no_digit_yet y 4) in Q2 by (cbn; lia). change (2 * 4 + 56)%nat with 64%nat in Q2. change (8 + Z.of_nat (4 - 4)) with 8 in Q2. rewrite Q2.
      rewrite java_mbtowc_loop2_S. change (12 <? 0xc) with false. cbv iota. destruct (Z.geb_spec y 0xdc00); [|lia]. destruct (Z.ltb_spec y 0xe000); [|lia]. cbn [negb].
      cbn [bind dview]. change (0xc <? 0) with false. cbv iota zeta. do 3 f_equal. unfold u32. rewrite Z.shiftl_mul_pow2 by lia. change (2 ^ 0xa) with 1024.
      change 0xd800 with 55296. change 0xdc00 with 56320. change 0x10000 with 65536.
      rewrite (Z.mod_small (x - 55296)) by lia. rewrite (Z.mod_small (y - 56320)) by lia. rewrite (Z.mod_small ((x - 55296) * 1024)) by lia.
      rewrite (Z.mod_small (65536 + (x - 55296) * 1024)) by lia. rewrite Z.mod_small by lia. now rewrite XY.
Qed.
(** Texts without backslashes. *)
Definition plain_char (c : Z) : Prop := scalar c = true /\ c <> 92.
Lemma stateless_carries : forall f (P : Z -> Prop) enc, f_reset f = None -> f_flush f = None -> (forall c o, P c -> emit f c o = Some (enc c, o)) ->
  (forall c t i, P c -> bytes (enc c ++ t) -> Z.of_nat (length (enc c ++ t)) <= LIM -> enc c <> [] /\ dec f (enc c ++ t) i = Some (DChar (length (enc c)) c i)) -> carries f P.
Proof.
  intros f P enc R F E D. apply step_carries with (fun _ i => i = (0, 0)). constructor.
  - reflexivity.
  - intros c o i Pc _ _. rewrite E by exact Pc. discriminate.
  - intros c o bs o' i t u skip Pc -> X B L. rewrite E in X by exact Pc. inversion X; subst. exists (0, 0). split; [reflexivity|].
    destruct (D c t (0, 0) Pc B L) as (D1 & D2). eapply takes_char; [|exact D2|].
    + destruct (enc c); [congruence|discriminate].
    + rewrite skipn_app, skipn_all, Nat.sub_diag. cbn. constructor.
  - intros o i u skip ->. exists (0, 0). unfold closing, held. rewrite R, F. split; [constructor|reflexivity].
Qed.
Lemma c99_carries : carries enc_c99 plain_char.
Proof.
  apply stateless_carries with c99_of; try reflexivity.
  - intros c o (S & _). apply c99_emit. unfold scalar in S. lia.
  - intros c t i (S & N) _ _. split; [|now apply c99_dec]. unfold c99_of. destruct (c <? 160); [|destruct (c <? 65536)]; discriminate.
Qed.
Lemma java_carries : carries enc_java plain_char.
Proof.
  apply stateless_carries with java_of; try reflexivity.
  - intros c o (S & _). apply java_emit. unfold scalar in S. lia.
  - intros c t i (S & N) _ _. split; [|now apply java_dec]. unfold java_of. destruct (c <? 128); [|destruct (c <? 65536)]; discriminate.
Qed.
Lemma no_backslash : forall cs v, text utf8_form cs = Some v -> ~ In 92 v -> Forall plain_char cs.
Proof.
  induction cs as [|c cs IH]; cbn; intros v T N; [constructor|]. destruct (utf8_form c) as [a|] eqn:E; [|discriminate]. destruct (text utf8_form cs) as [b|]; [|discriminate].
  inversion T; subst. constructor; [|apply (IH b); [reflexivity|intro X; apply N, in_or_app; auto]].
  split; [unfold utf8_form in E; destruct (scalar c); [reflexivity|discriminate]|]. intros ->. cbn in E. inversion E; subst. apply N. now left.
Qed.
(** A text that converts to UTF-8 without loss, and there contains no backslash: as C99 or Java escapes it converts onwards like the original. *)
Theorem C35_escapes_read_back : forall a e b flags s u v out n, source a -> In e [ei_c99; ei_java] -> target b -> input s -> input u ->
  whole (opened a ei_utf8 flags) s v 0 -> ~ In 92 v -> whole (opened a e flags) s u 0 ->
  (whole (opened a b flags) s out n <-> whole (opened e b flags) u out n).
Proof.
  intros a e b flags s u v out n Sa [<-|[<-|[]]] Tb I1 I2 W N W2; (eapply pivot; [exact Sa|apply targetb_ok; reflexivity|apply sourceb_ok; reflexivity|exact Tb|reflexivity| | |exact I1|exact I2|exact W2]).
  - exact c99_carries.
  - intros cs i R. eapply no_backslash; [|exact N]. eapply chars_text; [exact Sa| |exact I1|exact W|exact R]. apply targetb_ok; reflexivity.
  - exact java_carries.
  - intros cs i R. eapply no_backslash; [|exact N]. eapply chars_text; [exact Sa| |exact I1|exact W|exact R]. apply targetb_ok; reflexivity.
Qed.
(** Every text of scalar values can be written. *)
Theorem C35_escapes_express_everything : forall a e flags s v, source a -> In e [ei_c99; ei_java] -> input s -> whole (opened a ei_utf8 flags) s v 0 ->
  exists u, whole (opened a e flags) s u 0 /\ (input u -> ~ In 92 v -> whole (opened e ei_utf8 flags) u v 0).
Proof.
  intros a e flags s v Sa E I W.
  assert (X : exists u, whole (opened a e flags) s u 0).
  { destruct E as [<-|[<-|[]]]; (eapply scalar_expressed with (Q := fun _ => True); [exact Sa|apply targetb_ok; reflexivity|reflexivity| |exact I|exact W]); (split; [exact Logic.I|]); intros c o S _.
    - eexists _, _. split; [apply c99_emit; unfold scalar in S; lia|exact Logic.I].
    - eexists _, _. split; [apply java_emit; unfold scalar in S; lia|exact Logic.I]. }
  destruct X as (u & U). exists u. split; [exact U|]. intros Iu N. apply (C35_escapes_read_back a e ei_utf8 flags s u v v 0); auto. apply targetb_ok; reflexivity.
Qed.
(** Java escapes are 7-bit text; C99 text has bytes below A0. *)
Theorem C35_java_is_ascii : forall a flags s u n, source a -> input s -> whole (opened a ei_java flags) s u n -> Forall (fun c => 0 <= c < 128) u.
Proof.
  intros a flags s u n Sa I W. eapply (whole_bytes a ei_java enc_java flags s u n (fun _ => True)); eauto.
  - apply targetb_ok; reflexivity.
  - intros c o bs o' U _ E. split; [|exact Logic.I]. unfold ucs4 in U. destruct (Z.ltb_spec c 1114112) as [L|L].
    + rewrite java_emit in E by lia. inversion E. unfold java_of. destruct (Z.ltb_spec c 128); [repeat constructor; lia|].
      destruct (c <? 65536); repeat (constructor; [lia|]); [apply hexds_ascii|]. apply Forall_app. split; [apply hexds_ascii|]. repeat (constructor; [lia|]). apply hexds_ascii.
    + exfalso. unfold emit in E. cbn [f_wc enc_java] in E. unfold wc0, java_wctomb in E. cbv zeta in E.
      destruct (Z.ltb_spec c 0x80); [lia|]. destruct (Z.ltb_spec c 0x10000); [lia|]. destruct (Z.ltb_spec c 0x110000); [lia|]. discriminate.
  - intros o _. constructor.
Qed.
Theorem C35_c99_bytes : forall a flags s u n, source a -> input s -> whole (opened a ei_c99 flags) s u n -> Forall (fun c => 0 <= c < 160) u.
Proof.
  intros a flags s u n Sa I W. eapply (whole_bytes a ei_c99 enc_c99 flags s u n (fun _ => True)); eauto.
  - apply targetb_ok; reflexivity.
  - intros c o bs o' U _ E. split; [|exact Logic.I]. unfold ucs4 in U. rewrite c99_emit in E by lia. inversion E.
    assert (H : forall k, Forall (fun b => 0 <= b < 160) (hexds k c)) by (intro k; eapply Forall_impl; [|apply hexds_ascii]; cbn; lia).
    unfold c99_of. destruct (Z.ltb_spec c 160); [repeat constructor; lia|]. destruct (c <? 65536); repeat (constructor; [lia|]); apply H.
  - intros o _. constructor.
Qed.
(** C99 text need not be 7-bit: U+0080..U+009F are written as single bytes. *)
Theorem C35_c99_ascii_refuted : exists s u, input s /\ whole (opened ei_utf8 ei_c99 0) s u 0 /\ ~ Forall (fun c => 0 <= c < 128) u.
Proof. exists [0xc2; 0x85], [0x85]. split; [inp|]. split; [wrun 40%nat|]. intros F. inversion F. lia. Qed.
(** A text with a backslash need not come back: "\u00e9" becomes "é". *)
Theorem C35_backslash_refuted : forall e, In e [ei_c99; ei_java] ->
  exists s u v, whole (opened ei_utf8 ei_utf8 0) s s 0 /\ whole (opened ei_utf8 e 0) s u 0 /\ whole (opened e ei_utf8 0) u v 0 /\ v <> s.
Proof.
  intros e E. exists [92; 117; 48; 48; 101; 57], [92; 117; 48; 48; 101; 57], [0xc3; 0xa9].
  destruct E as [<-|[<-|[]]]; (split; [wrun 40%nat|split; [wrun 40%nat|split; [wrun 40%nat|discriminate]]]).
Qed.
(** "aé€😀" *)
Example C35_case : let s := [97; 0xc3; 0xa9; 0xe2; 0x82; 0xac; 0xf0; 0x9f; 0x98; 0x80] in
  let u := [97; 92; 117; 48; 48; 101; 57; 92; 117; 50; 48; 97; 99; 92; 117; 100; 56; 51; 100; 92; 117; 100; 101; 48; 48] in
  whole (opened ei_utf8 ei_java 0) s u 0 /\ whole (opened ei_java ei_utf8 0) u s 0.
Proof.
  cbv zeta. set (s := [97; _; _; _; _; _; _; _; _; _]).
  assert (A : whole (opened ei_utf8 ei_utf8 0) s s 0) by wrun 40%nat.
  split; [wrun 40%nat|]. apply (C35_escapes_read_back ei_utf8 ei_java ei_utf8 0 s _ s s 0); auto; [apply sourceb_ok; reflexivity|cbn; auto|apply targetb_ok; reflexivity|inp|inp| |wrun 40%nat].
  cbn. intuition lia.
Qed.
