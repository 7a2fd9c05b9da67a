(** Ranges of bit expressions. *)
From Coq Require Import ZArith Bool Lia.
From Verif Require Import Base.
Open Scope Z_scope.

Definition rng (k e : Z) : Prop := 0 <= e < 2 ^ k.

Lemma pow2_le : forall a b, a <= b -> 2 ^ a <= 2 ^ b.
Proof. intros a b H. destruct (Z.lt_ge_cases a 0) as [L|L]; [rewrite Z.pow_neg_r by exact L; apply Z.pow_nonneg; lia|]. apply Z.pow_le_mono_r; lia. Qed.
Lemma log2_rng : forall k x, 0 <= k -> 0 <= x -> (x = 0 \/ Z.log2 x < k) -> rng k x.
Proof.
  intros k x K X H. split; [exact X|]. destruct H as [->|H]; [apply Z.pow_pos_nonneg; lia|].
  destruct (Z.eq_dec x 0) as [->|N]; [apply Z.pow_pos_nonneg; lia|]. apply Z.log2_lt_pow2; lia.
Qed.
Lemma rng_log2 : forall k x, rng k x -> x = 0 \/ Z.log2 x < k.
Proof. intros k x [A B]. destruct (Z.eq_dec x 0) as [->|N]; [now left|right]. apply Z.log2_lt_pow2; lia. Qed.
Lemma rng_k : forall k x, rng k x -> 0 <= k.
Proof. intros k x [A B]. destruct (Z.lt_ge_cases k 0) as [L|L]; [|exact L]. rewrite Z.pow_neg_r in B by exact L. lia. Qed.

Lemma rng_lor : forall k a b, rng k a -> rng k b -> rng k (Z.lor a b).
Proof.
  intros k a b A B. pose proof (rng_k _ _ A). pose proof (proj1 A). pose proof (proj1 B).
  apply log2_rng; [assumption|apply Z.lor_nonneg; auto|]. rewrite Z.log2_lor by assumption.
  destruct (rng_log2 _ _ A) as [->|L]; destruct (rng_log2 _ _ B) as [->|M].
  - left. reflexivity.
  - destruct (Z.eq_dec k 0) as [->|N]; [left; pose proof (Z.log2_nonneg b); lia|right]. change (Z.log2 0) with 0. lia.
  - destruct (Z.eq_dec k 0) as [->|N]; [left; pose proof (Z.log2_nonneg a); lia|right]. change (Z.log2 0) with 0. lia.
  - right. lia.
Qed.
Lemma rng_lxor : forall k a b, rng k a -> rng k b -> rng k (Z.lxor a b).
Proof.
  intros k a b A B. pose proof (rng_k _ _ A). pose proof (proj1 A). pose proof (proj1 B).
  apply log2_rng; [assumption|apply Z.lxor_nonneg; tauto|]. pose proof (Z.log2_lxor a b ltac:(assumption) ltac:(assumption)) as X.
  destruct (Z.eq_dec k 0) as [->|N].
  - left. destruct A, B. change (2 ^ 0) with 1 in *. replace a with 0 by lia. replace b with 0 by lia. reflexivity.
  - right. destruct (rng_log2 _ _ A) as [->|L]; destruct (rng_log2 _ _ B) as [->|M]; change (Z.log2 0) with 0 in *; lia.
Qed.
Lemma rng_shl : forall k c a, 0 <= c -> rng (k - c) a -> rng k (Z.shiftl a c).
Proof.
  intros k c a C A. pose proof (rng_k _ _ A). destruct A as [A B]. unfold rng. rewrite Z.shiftl_mul_pow2 by exact C.
  assert (0 < 2 ^ c) by (apply Z.pow_pos_nonneg; lia). replace k with ((k - c) + c) by lia. rewrite Z.pow_add_r by lia. nia.
Qed.
Lemma rng_shr : forall k c a, 0 <= c -> 0 <= k -> rng (k + c) a -> rng k (Z.shiftr a c).
Proof.
  intros k c a C K [A B]. unfold rng. rewrite Z.shiftr_div_pow2 by exact C. assert (0 < 2 ^ c) by (apply Z.pow_pos_nonneg; lia).
  split; [apply Z.div_pos; lia|]. apply Z.div_lt_upper_bound; [lia|]. rewrite <- Z.pow_add_r by lia. now rewrite Z.add_comm.
Qed.
Lemma rng_land : forall k x m, 0 <= m < 2 ^ k -> rng k (Z.land x m).
Proof.
  intros k x m H. destruct H as [H1 H2]. split; [apply Z.land_nonneg; auto|].
  apply Z.le_lt_trans with m; [|exact H2]. destruct (Z.eq_dec m 0) as [->|N]; [rewrite Z.land_0_r; lia|].
  apply Z.ldiff_le; [exact H1|]. apply Z.bits_inj'. intros n Hn.
  rewrite Z.ldiff_spec, Z.land_spec, Z.bits_0. destruct (Z.testbit x n), (Z.testbit m n); reflexivity.
Qed.
Lemma rng_land2 : forall k x m, 0 <= k -> rng k x -> 0 <= m -> rng k (Z.land x m).
Proof.
  intros k x m K X M. split; [apply Z.land_nonneg; auto|]. rewrite Z.land_comm. apply Z.le_lt_trans with x; [|apply X].
  apply Z.ldiff_le; [apply X|]. apply Z.bits_inj'. intros n Hn.
  rewrite Z.ldiff_spec, Z.land_spec, Z.bits_0. destruct (Z.testbit x n), (Z.testbit m n); reflexivity.
Qed.
Lemma rng_u8 : forall k x, 8 <= k -> rng k (u8 x).
Proof. intros k x K. unfold rng, u8. pose proof (Z.mod_pos_bound x 256 ltac:(lia)). pose proof (pow2_le 8 k K). change (2 ^ 8) with 256 in *. lia. Qed.
Lemma rng_u16 : forall k x, 16 <= k -> rng k (u16 x).
Proof. intros k x K. unfold rng, u16. pose proof (Z.mod_pos_bound x 65536 ltac:(lia)). pose proof (pow2_le 16 k K). change (2 ^ 16) with 65536 in *. lia. Qed.
Lemma rng_u32 : forall k x, 32 <= k -> rng k (u32 x).
Proof. intros k x K. unfold rng, u32. pose proof (Z.mod_pos_bound x 4294967296 ltac:(lia)). pose proof (pow2_le 32 k K). change (2 ^ 32) with 4294967296 in *. lia. Qed.
Lemma rng_le : forall k k' x, k' <= k -> rng k' x -> rng k x.
Proof. intros k k' x H [A B]. split; [exact A|]. pose proof (pow2_le k' k H). lia. Qed.

Ltac shifts :=
  repeat match goal with
  | |- context [Z.shiftl ?x ?c] => rewrite (Z.shiftl_mul_pow2 x c) by lia
  | |- context [Z.shiftr ?x ?c] => rewrite (Z.shiftr_div_pow2 x c) by lia
  end;
  repeat match goal with |- context [2 ^ ?c] => let v := eval vm_compute in (2 ^ c) in change (2 ^ c) with v end.
Ltac shifts_hyps :=
  repeat match goal with
  | H : context [Z.shiftl ?x ?c] |- _ => rewrite (Z.shiftl_mul_pow2 x c) in H by lia
  | H : context [Z.shiftr ?x ?c] |- _ => rewrite (Z.shiftr_div_pow2 x c) in H by lia
  end;
  repeat match goal with H : context [2 ^ ?c] |- _ => let v := eval vm_compute in (2 ^ c) in change (2 ^ c) with v in H end.
Lemma land_le : forall x m, 0 <= m -> 0 <= Z.land x m <= m.
Proof.
  intros x m H. split; [apply Z.land_nonneg; auto|].
  destruct (Z.eq_dec m 0) as [->|N]; [rewrite Z.land_0_r; lia|].
  apply Z.ldiff_le; [exact H|]. apply Z.bits_inj'. intros n Hn.
  rewrite Z.ldiff_spec, Z.land_spec, Z.bits_0. destruct (Z.testbit x n), (Z.testbit m n); reflexivity.
Qed.
Ltac land_facts :=
  repeat match goal with
  | |- context [Z.land ?x ?m] => let v := eval vm_compute in (0 <=? m) in lazymatch v with true =>
      lazymatch goal with H : 0 <= Z.land x m <= m |- _ => fail | _ => pose proof (land_le x m ltac:(lia)) end end
  end.
Ltac rng_lia := unfold rng; land_facts; shifts; first [lia | Z.div_mod_to_equations; lia | shifts_hyps; first [lia | Z.div_mod_to_equations; lia]].
Ltac rng_ :=
  lazymatch goal with
  | |- rng ?k (Z.lor ?a ?b) => apply rng_lor; rng_
  | |- rng ?k (Z.lxor ?a ?b) => first [rng_lia | apply rng_lxor; rng_]
  | |- rng ?k (Z.shiftl ?a ?c) => apply rng_shl; [lia|let k' := eval vm_compute in (k - c) in change (rng k' a); rng_]
  | |- rng ?k (Z.shiftr ?a ?c) => first [rng_lia | apply rng_shr; [lia|lia|let k' := eval vm_compute in (k + c) in change (rng k' a); rng_]]
  | |- rng ?k (Z.land ?a ?m) => first [apply rng_land; rng_lia | apply rng_land2; [lia|rng_|lia]]
  | |- rng ?k (u8 ?a) => first [apply rng_u8; lia | unfold u8; rng_lia]
  | |- rng ?k (u16 ?a) => first [apply rng_u16; lia | unfold u16; rng_lia]
  | |- rng ?k (u32 ?a) => first [apply rng_u32; lia | unfold u32; rng_lia]
  | |- rng ?k (if ?c then ?a else ?b) => let H := fresh in destruct c eqn:H; rng_
  | |- rng ?k ?a => rng_lia
  end.
(** Facts about the bit expressions inside a sum. *)
Ltac rng_fact k e := let H := fresh "RF" in assert (H : rng k e) by rng_; unfold rng in H; let v := eval vm_compute in (2 ^ k) in change (2 ^ k) with v in H.
