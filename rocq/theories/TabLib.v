(** Constant tables: entries and their ranges, checked row by row; the two-level Summary16 tables. *)
From Coq Require Import ZArith List Bool Lia.
From Verif Require Import Base Contract LoopLib Loop Reflect Sx EncLib.
Import ListNotations.
Open Scope Z_scope.

(** ** Entries of a table *)
Fixpoint rows (t : tab) (p : positive) (k : nat) (q : list Z -> bool) : bool :=
  match k with
  | O => true
  | S k => match tlook t p with Some row => q row && rows t (Pos.succ p) k q | None => false end
  end.
Lemma rows_sound : forall q k t p, rows t p k q = true -> forall j, 0 <= j < Z.of_nat k ->
  exists row, tlook t (Z.to_pos (Zpos p + j)) = Some row /\ q row = true.
Proof.
  intros q. induction k as [|k IH]; intros t p H j Hj; [lia|]. cbn [rows] in H.
  destruct (tlook t p) as [row|] eqn:E; [|discriminate]. apply andb_true_iff in H. destruct H as [A B].
  destruct (Z.eq_dec j 0) as [->|N].
  - exists row. rewrite Z.add_0_r. auto.
  - destruct (IH t (Pos.succ p) B (j - 1) ltac:(lia)) as (r & R1 & R2). exists r. split; [|exact R2].
    replace (Zpos p + j) with (Zpos (Pos.succ p) + (j - 1)) by lia. exact R1.
Qed.
Lemma nthp_in : forall l i, 0 <= i < Z.of_nat (length l) -> exists v, nthp l i = Some v /\ In v l.
Proof.
  induction l as [|x l IH]; intros i H; [cbn in H; lia|]. cbn [nthp]. destruct (Z.eqb_spec i 0).
  - exists x. split; [reflexivity|now left].
  - cbn [length] in H. destruct (IH (i - 1) ltac:(lia)) as (v & A & B). exists v. split; [exact A|now right].
Qed.
Lemma row_look : forall t i row, 0 <= i -> tlook t (Z.to_pos (1 + i / 16)) = Some row -> i mod 16 < Z.of_nat (length row) ->
  exists v, tlookup t i = Some v /\ In v row /\ nthp row (i mod 16) = Some v.
Proof.
  intros t i row Hi H L. pose proof (Z.mod_pos_bound i 16 ltac:(lia)).
  destruct (nthp_in row (i mod 16) ltac:(lia)) as (v & A & B). exists v. split; [|auto]. unfold tlookup.
  destruct (Z.ltb_spec i 0); [lia|]. rewrite Z.shiftr_div_pow2 by lia. change (2 ^ 4) with 16. rewrite Z.add_comm, H.
  change 15 with (Z.ones 4). rewrite Z.land_ones by lia. exact A.
Qed.

Definition fullrow (f : Z -> bool) (row : list Z) : bool := Nat.eqb (length row) 16 && forallb f row.
(** The n first entries exist and satisfy f. *)
Definition tchk (t : tab) (n : Z) (f : Z -> bool) : bool :=
  rows t 1 (Z.to_nat (n / 16)) (fullrow f) &&
  let m := n mod 16 in
  ((m =? 0) || match tlook t (Z.to_pos (1 + n / 16)) with Some row => (m <=? Z.of_nat (length row)) && forallb f row | None => false end).
Lemma tchk_sound : forall t n f, tchk t n f = true -> forall i, 0 <= i < n -> exists v, tlookup t i = Some v /\ f v = true.
Proof.
  intros t n f H i Hi. unfold tchk in H. apply andb_true_iff in H. destruct H as [A B].
  pose proof (Z.div_mod i 16 ltac:(lia)) as DI. pose proof (Z.mod_pos_bound i 16 ltac:(lia)) as MI.
  pose proof (Z.div_mod n 16 ltac:(lia)) as DN. pose proof (Z.mod_pos_bound n 16 ltac:(lia)) as MN.
  assert (i / 16 <= n / 16) by (apply Z.div_le_mono; lia). assert (0 <= i / 16) by (apply Z.div_pos; lia).
  destruct (Z.eq_dec (i / 16) (n / 16)) as [E|N].
  - apply orb_true_iff in B. destruct B as [B|B]; [apply Z.eqb_eq in B; lia|].
    destruct (tlook t (Z.to_pos (1 + n / 16))) as [row|] eqn:R; [|discriminate]. apply andb_true_iff in B. destruct B as [B1 B2]. apply Z.leb_le in B1.
    destruct (row_look t i row ltac:(lia)) as (v & V & Iv & _); [now rewrite E|lia|]. exists v. split; [exact V|].
    rewrite forallb_forall in B2. now apply B2.
  - destruct (rows_sound _ _ _ _ A (i / 16) ltac:(lia)) as (row & R1 & R2). unfold fullrow in R2. apply andb_true_iff in R2. destruct R2 as [R2 R3].
    apply Nat.eqb_eq in R2. destruct (row_look t i row ltac:(lia)) as (v & V & Iv & _); [exact R1|rewrite R2; cbn; lia|]. exists v. split; [exact V|].
    rewrite forallb_forall in R3. now apply R3.
Qed.

(** The table has at least n entries, all of the first n between lo and hi. *)
Definition tabin (t : tab) (n lo hi : Z) : Prop := forall i, 0 <= i < n -> exists v, tlookup t i = Some v /\ lo <= v <= hi.
Lemma tabin_chk : forall t n lo hi, tchk t n (fun v => (lo <=? v) && (v <=? hi)) = true -> tabin t n lo hi.
Proof.
  intros t n lo hi H i Hi. destruct (tchk_sound _ _ _ H i Hi) as (v & V & R). exists v. split; [exact V|].
  apply andb_true_iff in R. rewrite !Z.leb_le in R. exact R.
Qed.

(** All x below n. *)
Definition zall (d : nat) (n : Z) (f : Z -> bool) : bool := allp d 0 (fun x => (n <=? x) || f x).
Lemma zall_sound : forall d n f, zall d n f = true -> n <= 2 ^ Z.of_nat d -> forall x, 0 <= x < n -> f x = true.
Proof.
  intros d n f H Hn x Hx. pose proof (allp_sound _ _ _ H x ltac:(lia)) as K. cbv beta in K. apply orb_true_iff in K. destruct K as [K|K]; [apply Z.leb_le in K; lia|exact K].
Qed.

(** ** Bit counts *)
Definition pop16 (used : Z) : Z :=
  let used := ((Z.land used 0x5555) + (Z.shiftr (Z.land used 0xaaaa) 1)) in
  let used := ((Z.land used 0x3333) + (Z.shiftr (Z.land used 0xcccc) 2)) in
  let used := ((Z.land used 0xf0f) + (Z.shiftr (Z.land used 0xf0f0) 4)) in
  let used := ((Z.land used 0xff) + (Z.shiftr used 8)) in
  used.
(** Number of bits set below position k. *)
Fixpoint bcn (k : nat) (x : Z) : Z := match k with O => 0 | S k => b2z (Z.testbit x (Z.of_nat k)) + bcn k x end.
Fixpoint bcp (p : positive) : Z := match p with xH => 1 | xO p => bcp p | xI p => 1 + bcp p end.
Definition bc (x : Z) : Z := match x with Zpos p => bcp p | _ => 0 end.
Fixpoint bcd (k : nat) (x : Z) : Z := match k with O => 0 | S k => b2z (Z.odd x) + bcd k (Z.div2 x) end.
Lemma bcd_bcn : forall k x, bcd k x = bcn k x.
Proof.
  assert (S0 : forall k x, bcn (S k) x = b2z (Z.odd x) + bcn k (Z.div2 x)).
  { induction k as [|k IH]; intro x.
    - cbn [bcn]. change (Z.of_nat 0) with 0. now rewrite Z.bit0_odd.
    - cbn [bcn] in *. rewrite IH. rewrite (Z.div2_spec x), Z.shiftr_spec by lia. change (Z.of_nat k + 1) with (Z.succ (Z.of_nat k)). replace (Z.of_nat (S k)) with (Z.succ (Z.of_nat k)) by lia. lia. }
  induction k as [|k IH]; intro x; [reflexivity|]. rewrite S0. cbn [bcd]. now rewrite IH.
Qed.
Lemma bcp_bcd : forall k p, Zpos p < 2 ^ Z.of_nat k -> bcp p = bcd k (Zpos p).
Proof.
  assert (O0 : forall k, bcd k 0 = 0) by (induction k as [|k IH]; [reflexivity|exact IH]).
  induction k as [|k IH]; intros p H; [cbn in H; lia|].
  rewrite Nat2Z.inj_succ, Z.pow_succ_r in H by lia. destruct p as [p|p|]; cbn [bcp bcd Z.odd b2z Z.div2].
  - rewrite IH; [reflexivity|]. lia.
  - rewrite IH; [reflexivity|]. lia.
  - rewrite O0. reflexivity.
Qed.
Lemma pop16_small : forall x, 0 <= x < 65536 -> pop16 x = bcn 16 x.
Proof.
  intros x H. assert (C : zall 16 65536 (fun x => pop16 x =? bc x) = true) by (vm_cast_no_check (eq_refl true)).
  pose proof (zall_sound _ _ _ C ltac:(reflexivity) x H) as K. apply Z.eqb_eq in K. rewrite K. rewrite <- bcd_bcn.
  destruct x as [|p|p]; [reflexivity| |lia]. cbn [bc].
  apply (bcp_bcd 16%nat). change (2 ^ Z.of_nat 16) with 65536. lia.
Qed.
Lemma bcn_mask : forall k x i, 0 <= i -> Z.of_nat k <= i -> bcn k (Z.land x (Z.ones i)) = bcn k x.
Proof.
  induction k as [|k IH]; intros x i Hi H; [reflexivity|]. cbn [bcn]. rewrite IH by lia. f_equal. f_equal.
  rewrite Z.land_spec, Z.ones_spec_low by lia. apply andb_true_r.
Qed.
Lemma bcn_high : forall k x i, 0 <= i -> (Z.to_nat i <= k)%nat -> bcn k (Z.land x (Z.ones i)) = bcn (Z.to_nat i) x.
Proof.
  induction k as [|k IH]; intros x i Hi H.
  - replace (Z.to_nat i) with 0%nat by lia. reflexivity.
  - destruct (Nat.eq_dec (Z.to_nat i) (S k)) as [E|N]; [rewrite E; apply bcn_mask; lia|].
    cbn [bcn]. rewrite Z.land_spec, Z.ones_spec_high by lia. rewrite andb_false_r. cbn [b2z]. rewrite IH by lia. lia.
Qed.
Lemma bcn_nonneg : forall k x, 0 <= bcn k x.
Proof. induction k as [|k IH]; intro x; cbn [bcn]; [lia|]. specialize (IH x). destruct (Z.testbit x (Z.of_nat k)); cbn [b2z]; lia. Qed.
Lemma bcn_mono : forall k j x, (j <= k)%nat -> bcn j x <= bcn k x.
Proof.
  induction k as [|k IH]; intros j x H; [replace j with 0%nat by lia; lia|].
  destruct (Nat.eq_dec j (S k)) as [->|N]; [lia|]. specialize (IH j x ltac:(lia)). cbn [bcn]. destruct (Z.testbit x (Z.of_nat k)); cbn [b2z]; lia.
Qed.
Lemma bit_land : forall x i, 0 <= i -> Z.land x (Z.shiftl 1 i) <> 0 -> Z.testbit x i = true.
Proof.
  intros x i Hi H. destruct (Z.testbit x i) eqn:E; [reflexivity|]. exfalso. apply H. apply Z.bits_inj'. intros n Hn.
  rewrite Z.land_spec, Z.shiftl_spec, Z.bits_0 by lia. destruct (Z.eq_dec n i) as [->|N]; [now rewrite E|].
  replace (Z.testbit 1 (n - i)) with false; [apply andb_false_r|]. symmetry.
  destruct (Z.lt_ge_cases (n - i) 0); [now apply Z.testbit_neg_r|]. change 1 with (Z.ones 1). apply Z.ones_spec_high; lia.
Qed.
Lemma pop_lt : forall used i, 0 <= used < 65536 -> 0 <= i < 16 -> Z.land used (Z.shiftl 1 i) <> 0 ->
  0 <= pop16 (Z.land used (Z.shiftl 1 i - 1)) < bcn 16 used.
Proof.
  intros used i Hu Hi H. apply bit_land in H; [|lia].
  replace (Z.shiftl 1 i - 1) with (Z.ones i) by (rewrite Z.ones_equiv, Z.shiftl_mul_pow2 by lia; lia).
  rewrite pop16_small.
  - rewrite bcn_high by lia. split; [apply bcn_nonneg|].
    apply Z.lt_le_trans with (bcn (S (Z.to_nat i)) used); [|apply bcn_mono; lia]. cbn [bcn]. rewrite Z2Nat.id by lia. rewrite H. cbn [b2z]. lia.
  - rewrite Z.land_ones by lia. pose proof (Z.mod_pos_bound used (2 ^ i) ltac:(apply Z.pow_pos_nonneg; lia)).
    assert (2 ^ i <= 2 ^ 16) by (apply Z.pow_le_mono_r; lia). change (2 ^ 16) with 65536 in *. lia.
Qed.

(** ** Summary16 tables: entry i of T starts at index indx of the charset table and has the characters of used. *)
Definition sumin (T : tab) (N L : Z) : Prop := forall i, 0 <= i < N -> exists indx used,
  tlookup T (2 * i) = Some indx /\ tlookup T (2 * i + 1) = Some used /\ 0 <= indx /\ 0 <= used < 65536 /\ indx + bcn 16 used <= L.
Fixpoint pairs (L : Z) (row : list Z) : bool :=
  match row with
  | indx :: used :: row => (0 <=? indx) && (0 <=? used) && (used <? 65536) && (indx + bc used <=? L) && pairs L row
  | [] => true
  | _ => false
  end.
Lemma pairs_nth : forall L row i indx, pairs L row = true -> 0 <= i -> nthp row (2 * i) = Some indx ->
  exists used, nthp row (2 * i + 1) = Some used /\ 0 <= indx /\ 0 <= used < 65536 /\ indx + bc used <= L.
Proof.
  intros L row. remember (length row) as n eqn:E. revert row E. induction n as [n IH] using lt_wf_ind. intros row E i indx H Hi N.
  destruct row as [|a [|b row]]; [discriminate N|discriminate H|]. cbn [pairs] in H. rewrite !andb_true_iff, !Z.leb_le, Z.ltb_lt in H.
  destruct H as [[[[H1 H2] H3] H4] H5]. destruct (Z.eq_dec i 0) as [->|Ni].
  - cbn in N. injection N as <-. exists b. split; [reflexivity|]. lia.
  - cbn [nthp] in N. destruct (Z.eqb_spec (2 * i) 0); [lia|]. destruct (Z.eqb_spec (2 * i - 1) 0); [lia|].
    replace (2 * i - 1 - 1) with (2 * (i - 1)) in N by lia.
    destruct (IH (length row) ltac:(subst; cbn [length]; lia) row eq_refl (i - 1) indx H5 ltac:(lia) N) as (u & U & R).
    exists u. split; [|exact R]. cbn [nthp]. destruct (Z.eqb_spec (2 * i + 1) 0); [lia|]. destruct (Z.eqb_spec (2 * i + 1 - 1) 0); [lia|].
    replace (2 * i + 1 - 1 - 1) with (2 * (i - 1) + 1) by lia. exact U.
Qed.
Definition sumchk (T : tab) (N L : Z) : bool :=
  rows T 1 (Z.to_nat (N / 8)) (fun row => Nat.eqb (length row) 16 && pairs L row) &&
  let m := N mod 8 in
  ((m =? 0) || match tlook T (Z.to_pos (1 + N / 8)) with Some row => (2 * m <=? Z.of_nat (length row)) && pairs L row | None => false end).
Lemma bc_bcn : forall x, 0 <= x < 65536 -> bc x = bcn 16 x.
Proof.
  intros x H. rewrite <- bcd_bcn. destruct x as [|p|p]; [reflexivity| |lia]. cbn [bc].
  apply (bcp_bcd 16%nat). change (2 ^ Z.of_nat 16) with 65536. lia.
Qed.
Lemma sum_row : forall T L i row, 0 <= i -> tlook T (Z.to_pos (1 + i / 8)) = Some row -> 2 * (i mod 8) < Z.of_nat (length row) -> pairs L row = true ->
  exists indx used, tlookup T (2 * i) = Some indx /\ tlookup T (2 * i + 1) = Some used /\ 0 <= indx /\ 0 <= used < 65536 /\ indx + bcn 16 used <= L.
Proof.
  intros T L i row Hi R Lr P. pose proof (Z.div_mod i 8 ltac:(lia)) as DI. pose proof (Z.mod_pos_bound i 8 ltac:(lia)) as MI.
  assert (D0 : (2 * i) / 16 = i / 8) by (symmetry; apply (Z.div_unique_pos _ _ _ (2 * (i mod 8))); lia).
  assert (M0 : (2 * i) mod 16 = 2 * (i mod 8)) by (symmetry; apply (Z.mod_unique_pos _ _ (i / 8)); lia).
  assert (D1 : (2 * i + 1) / 16 = i / 8) by (symmetry; apply (Z.div_unique_pos _ _ _ (2 * (i mod 8) + 1)); lia).
  assert (M1 : (2 * i + 1) mod 16 = 2 * (i mod 8) + 1) by (symmetry; apply (Z.mod_unique_pos _ _ (i / 8)); lia).
  destruct (row_look T (2 * i) row ltac:(lia)) as (indx & V & _ & Nt); [now rewrite D0|lia|].
  rewrite M0 in Nt. destruct (pairs_nth L row (i mod 8) indx P ltac:(lia) Nt) as (used & U & A & B & C).
  exists indx, used. split; [exact V|]. split.
  - unfold tlookup. destruct (Z.ltb_spec (2 * i + 1) 0); [lia|]. rewrite Z.shiftr_div_pow2 by lia. change (2 ^ 4) with 16.
    rewrite D1, Z.add_comm, R. change 15 with (Z.ones 4). rewrite Z.land_ones by lia. change (2 ^ 4) with 16. now rewrite M1.
  - rewrite bc_bcn in C by lia. auto.
Qed.
Lemma sumin_chk : forall T N L, sumchk T N L = true -> sumin T N L.
Proof.
  intros T N L H i Hi. unfold sumchk in H. apply andb_true_iff in H. destruct H as [A B].
  pose proof (Z.div_mod i 8 ltac:(lia)) as DI. pose proof (Z.mod_pos_bound i 8 ltac:(lia)) as MI.
  pose proof (Z.div_mod N 8 ltac:(lia)) as DN. pose proof (Z.mod_pos_bound N 8 ltac:(lia)) as MN.
  assert (i / 8 <= N / 8) by (apply Z.div_le_mono; lia). assert (0 <= i / 8) by (apply Z.div_pos; lia).
  destruct (Z.eq_dec (i / 8) (N / 8)) as [E|Ne].
  - apply orb_true_iff in B. destruct B as [B|B]; [apply Z.eqb_eq in B; lia|].
    destruct (tlook T (Z.to_pos (1 + N / 8))) as [row|] eqn:R; [|discriminate]. apply andb_true_iff in B. destruct B as [B1 B2]. apply Z.leb_le in B1.
    apply (sum_row T L i row); [lia|now rewrite E|lia|exact B2].
  - destruct (rows_sound _ _ _ _ A (i / 8) ltac:(lia)) as (row & R1 & R2). apply andb_true_iff in R2. destruct R2 as [R2 R3].
    apply Nat.eqb_eq in R2. apply (sum_row T L i row); [lia|exact R1|rewrite R2; change (Z.of_nat 16) with 16; lia|exact R3].
Qed.
Lemma sum_step : forall md A T N L i (k : Z -> res A) Q, sumin T N L -> 0 <= i < N ->
  (forall indx used, tlookup T (2 * i) = Some indx -> tlookup T (2 * i + 1) = Some used -> 0 <= indx -> 0 <= used < 65536 ->
     indx + bcn 16 used <= L -> hold md (k used) Q) -> hold md (sget (Some (T, i)) 1 k) Q.
Proof.
  intros md A T N L i k Q H Hi K. destruct (H i Hi) as (indx & used & E1 & E2 & A1 & A2 & A3).
  cbn [sget]. apply (holds_tget md A T _ used k Q E2). eauto.
Qed.

(** The tail shared by the encoders with Summary16 tables (e.g. jisx0208.h:2398-2418). *)
Definition std_j (C : tab) (summary : option (tab * Z)) (wc : Z) (r : wlog) : res (Z * wlog) :=
  if (negb (isnull summary)) then
   sget summary 1 (fun used =>
   let i := (Z.land wc 0xf) in
   if (negb ((Z.land used (Z.shiftl 1 i)) =? 0)) then
    let used := (Z.land used ((Z.shiftl 1 i) - 1)) in
    let used := ((Z.land used 0x5555) + (Z.shiftr (Z.land used 0xaaaa) 1)) in
    let used := ((Z.land used 0x3333) + (Z.shiftr (Z.land used 0xcccc) 2)) in
    let used := ((Z.land used 0xf0f) + (Z.shiftr (Z.land used 0xf0f0) 4)) in
    let used := ((Z.land used 0xff) + (Z.shiftr used 8)) in
    sget summary 0 (fun x2 =>
    tget C (x2 + used) (fun c =>
    let r := wr r 0%nat (Z.shiftr c 8) in
    let r := wr r 1%nat (Z.land c 0xff) in
    Ok (2, r)))
   else
    Ok ((-1), r))
  else
   Ok ((-1), r).
Definition csok (ok : list Z -> bool) (c : Z) : bool := ok [Z.shiftr c 8; Z.land c 0xff].
Lemma low4 : forall wc, 0 <= Z.land wc 0xf < 16.
Proof. intro wc. pose proof (land_byte wc 15 ltac:(lia)). lia. Qed.
Lemma std_j_ok : forall C L ok T N i wc, tchk C L (csok ok) = true -> sumin T N L -> 0 <= i < N ->
  leaf_ok 2 ok (std_j C (Some (T, i)) wc []) = true.
Proof.
  intros C L ok T N i wc HC HS Hi. destruct (HS i Hi) as (indx & used & E1 & E2 & A1 & A2 & A3).
  unfold std_j. cbn [isnull negb sget]. unfold tget at 1. rewrite E2. cbv zeta.
  destruct (Z.eqb_spec (Z.land used (Z.shiftl 1 (Z.land wc 15))) 0) as [Z0|NZ]; cbn [negb]; [reflexivity|].
  pose proof (pop_lt used (Z.land wc 15) A2 (low4 wc) NZ) as P. unfold tget at 1. rewrite Z.add_0_r, E1.
  destruct (tchk_sound _ _ _ HC (indx + pop16 (Z.land used (Z.shiftl 1 (Z.land wc 15) - 1))) ltac:(lia)) as (c & V & O).
  unfold pop16 in V. cbv zeta in V. unfold tget. rewrite V. cbn. exact O.
Qed.
