(** Decoder contracts of C99 and JAVA (backslash escapes). *)
From Coq Require Import ZArith List Bool Lia.
From Verif Require Import Base Loop Contract LoopLib Reflect Sx Rng EncLib DecLib Conv_uni Encodings Unroll.
Import ListNotations.
Open Scope Z_scope.

(** The same as d0goal for a part of a decoder. *)
Definition gat (g : list Z -> res (Z * option Z)) (s : list Z) (d : d0res) : Prop :=
  holds (g s) (fun '(c, w) => c = d0ret d /\ match d with D0Char _ wc => w = Some wc | _ => True end).
Definition ggoal (g : list Z -> res (Z * option Z)) (s : list Z) : Prop :=
  exists d, d0ok 1 s d /\ gat g s d /\ (d <> D0Few -> forall t, gat g (s ++ t) d).

Lemma ggoal_ext : forall g g' s, g s = g' s -> (forall t, g (s ++ t) = g' (s ++ t)) -> ggoal g' s -> ggoal g s.
Proof.
  intros g g' s E E' (d & O & A & T). exists d. split; [exact O|]. unfold gat in *. rewrite E. split; [exact A|].
  intros N t. rewrite E'. now apply T.
Qed.
Lemma ggoal_ext' : forall g g' s, (forall t, g (s ++ t) = g' (s ++ t)) -> ggoal g' s -> ggoal g s.
Proof. intros g g' s E. apply ggoal_ext; [|exact E]. specialize (E []). now rewrite app_nil_r in E. Qed.
Lemma ggoal_char : forall g s k wc, (1 <= k <= length s)%nat -> ucs4 wc -> (forall t, g (s ++ t) = Ok (Z.of_nat k, Some wc)) -> ggoal g s.
Proof.
  intros g s k wc K U H. exists (D0Char k wc). split; [split; assumption|]. unfold gat. split.
  - specialize (H []). rewrite app_nil_r in H. rewrite H. split; reflexivity.
  - intros _ t. rewrite H. split; reflexivity.
Qed.
Lemma ggoal_ill : forall g s, (1 <= length s)%nat -> (forall t, g (s ++ t) = Ok (-1, None)) -> ggoal g s.
Proof.
  intros g s K H. exists D0Ill. split; [exact K|]. unfold gat. split.
  - specialize (H []). rewrite app_nil_r in H. rewrite H. split; auto; reflexivity.
  - intros _ t. rewrite H. split; auto; reflexivity.
Qed.
Lemma ggoal_few : forall g s, g s = Ok (-2, None) -> ggoal g s.
Proof. intros g s H. exists D0Few. split; [exact I|]. unfold gat. rewrite H. split; [split; [reflexivity|exact I]|]. intro X. now contradiction X. Qed.

Ltac cnd := repeat (first
  [ match goal with
    | |- context [Z.geb ?a ?b] => first [rewrite (geb_t a b) by lia | rewrite (geb_f a b) by lia]
    | |- context [Z.leb ?a ?b] => first [rewrite (leb_t a b) by lia | rewrite (leb_f a b) by lia]
    | |- context [Z.ltb ?a ?b] => first [rewrite (ltb_t a b) by lia | rewrite (ltb_f a b) by lia]
    | |- context [Z.eqb ?a ?b] => first [rewrite (eqb_t a b) by lia | rewrite (eqb_f a b) by lia]
    | |- context [Nat.leb ?a ?b] => first [rewrite (proj2 (Nat.leb_le a b)) by lia | rewrite (proj2 (Nat.leb_gt a b)) by lia]
    | |- context [Nat.ltb ?a ?b] => first [rewrite (proj2 (Nat.ltb_lt a b)) by lia | rewrite (proj2 (Nat.ltb_ge a b)) by lia]
    end; cbn [negb]; cbv iota ]).

(** Value of a character read as a digit, as the code does: letters up to z. *)
Definition hexv (c : Z) : option Z :=
  if (0x30 <=? c) && (c <=? 0x39) then Some (c - 0x30) else
  if (0x41 <=? c) && (c <=? 0x5a) then Some (c - 0x37) else
  if (0x61 <=? c) && (c <=? 0x7a) then Some (c - 0x57) else None.
Lemma hexv_rng : forall c v, hexv c = Some v -> 0 <= v < 64.
Proof.
  intros c v. unfold hexv.
  destruct (Z.leb_spec 0x30 c), (Z.leb_spec c 0x39), (Z.leb_spec 0x41 c), (Z.leb_spec c 0x5a), (Z.leb_spec 0x61 c), (Z.leb_spec c 0x7a); cbn [andb];
    intro H'; try discriminate H'; injection H' as <-; lia.
Qed.

Lemma app_len : forall (A : Type) (s t : list A), (length s <= length (s ++ t))%nat.
Proof. intros. rewrite app_length. lia. Qed.
Lemma nth_app : forall (s t : list Z) i c, nth_error s i = Some c -> nth_error (s ++ t) i = Some c.
Proof. intros s t i c H. rewrite nth_error_app1; [exact H|]. apply nth_error_Some. congruence. Qed.

Ltac rd_ H := unfold rd; rewrite (nth_app _ _ _ _ H).
Ltac hex_cases c E V :=
  unfold hexv in E;
  destruct (Z.leb_spec 0x30 c), (Z.leb_spec c 0x39), (Z.leb_spec 0x41 c), (Z.leb_spec c 0x5a), (Z.leb_spec 0x61 c), (Z.leb_spec c 0x7a);
  cbn [andb] in E; try discriminate E; try (injection E as <-); try (exfalso; lia).

Lemma c99_step : forall fuel i wc s n c v, i < 6 -> (Z.to_nat i < n)%nat -> nth_error s (Z.to_nat i) = Some c -> hexv c = Some v ->
  c99_mbtowc_loop (S (S fuel)) i wc s n None = c99_mbtowc_loop fuel (i + 1) (Z.lor wc (Z.shiftl v (4 * (5 - i)))) s n None.
Proof.
  intros fuel i wc s n c v I N Hc E. rewrite c99_mbtowc_loop_S. unfold rd. rewrite Hc.
  rewrite (ltb_t i 6) by lia. rewrite (proj2 (Nat.leb_gt _ _)) by lia.
  hex_cases c E v; cnd; rewrite c99_mbtowc_j_S; reflexivity.
Qed.
Lemma c99_stop : forall fuel i wc s n c, i < 6 -> (Z.to_nat i < n)%nat -> nth_error s (Z.to_nat i) = Some c -> hexv c = None ->
  c99_mbtowc_loop (S fuel) i wc s n None = Ok (1, Some 0x5c).
Proof.
  intros fuel i wc s n c I N Hc E. rewrite c99_mbtowc_loop_S. unfold rd. rewrite Hc.
  rewrite (ltb_t i 6) by lia. rewrite (proj2 (Nat.leb_gt _ _)) by lia.
  hex_cases c E v; cnd; reflexivity.
Qed.
Lemma c99_step2 : forall fuel i wc s n c v, i < 10 -> (Z.to_nat i < n)%nat -> nth_error s (Z.to_nat i) = Some c -> hexv c = Some v ->
  c99_mbtowc_loop2 (S (S fuel)) i wc s n None = c99_mbtowc_loop2 fuel (i + 1) (Z.lor wc (u32 (Z.shiftl v (4 * (9 - i))))) s n None.
Proof.
  intros fuel i wc s n c v I N Hc E. rewrite c99_mbtowc_loop2_S. unfold rd. rewrite Hc.
  rewrite (ltb_t i 10) by lia. rewrite (proj2 (Nat.leb_gt _ _)) by lia.
  hex_cases c E v; cnd; rewrite c99_mbtowc_j2_S; reflexivity.
Qed.
Lemma c99_stop2 : forall fuel i wc s n c, i < 10 -> (Z.to_nat i < n)%nat -> nth_error s (Z.to_nat i) = Some c -> hexv c = None ->
  c99_mbtowc_loop2 (S fuel) i wc s n None = Ok (1, Some 0x5c).
Proof.
  intros fuel i wc s n c I N Hc E. rewrite c99_mbtowc_loop2_S. unfold rd. rewrite Hc.
  rewrite (ltb_t i 10) by lia. rewrite (proj2 (Nat.leb_gt _ _)) by lia.
  hex_cases c E v; cnd; reflexivity.
Qed.
Lemma java_step : forall fuel i wc s n c v, i < 6 -> (Z.to_nat i < n)%nat -> nth_error s (Z.to_nat i) = Some c -> hexv c = Some v ->
  java_mbtowc_loop (S (S fuel)) i wc s n None = java_mbtowc_loop fuel (i + 1) (Z.lor wc (Z.shiftl v (4 * (5 - i)))) s n None.
Proof.
  intros fuel i wc s n c v I N Hc E. rewrite java_mbtowc_loop_S. unfold rd. rewrite Hc.
  rewrite (ltb_t i 6) by lia. rewrite (proj2 (Nat.leb_gt _ _)) by lia.
  hex_cases c E v; cnd; rewrite java_mbtowc_j_S; reflexivity.
Qed.
Lemma java_stop : forall fuel i wc s n c, i < 6 -> (Z.to_nat i < n)%nat -> nth_error s (Z.to_nat i) = Some c -> hexv c = None ->
  java_mbtowc_loop (S fuel) i wc s n None = Ok (1, Some 0x5c).
Proof.
  intros fuel i wc s n c I N Hc E. rewrite java_mbtowc_loop_S. unfold rd. rewrite Hc.
  rewrite (ltb_t i 6) by lia. rewrite (proj2 (Nat.leb_gt _ _)) by lia.
  hex_cases c E v; cnd; reflexivity.
Qed.
Lemma java_step2 : forall fuel i wc wc2 s n c v, i < 12 -> (Z.to_nat i < n)%nat -> nth_error s (Z.to_nat i) = Some c -> hexv c = Some v ->
  java_mbtowc_loop2 (S (S fuel)) i wc wc2 s n None = java_mbtowc_loop2 fuel (i + 1) wc (Z.lor wc2 (Z.shiftl v (4 * (11 - i)))) s n None.
Proof.
  intros fuel i wc wc2 s n c v I N Hc E. rewrite java_mbtowc_loop2_S. unfold rd. rewrite Hc.
  rewrite (ltb_t i 12) by lia. rewrite (proj2 (Nat.leb_gt _ _)) by lia.
  hex_cases c E v; cnd; rewrite java_mbtowc_j2_S; reflexivity.
Qed.
Lemma java_stop2 : forall fuel i wc wc2 s n c, i < 12 -> (Z.to_nat i < n)%nat -> nth_error s (Z.to_nat i) = Some c -> hexv c = None ->
  java_mbtowc_loop2 (S fuel) i wc wc2 s n None = Ok (1, Some 0x5c).
Proof.
  intros fuel i wc wc2 s n c I N Hc E. rewrite java_mbtowc_loop2_S. unfold rd. rewrite Hc.
  rewrite (ltb_t i 12) by lia. rewrite (proj2 (Nat.leb_gt _ _)) by lia.
  hex_cases c E v; cnd; reflexivity.
Qed.

Lemma lor_bound : forall k a v e, rng k a -> 0 <= e -> e + 6 <= k -> 0 <= v < 64 -> rng k (Z.lor a (Z.shiftl v e)).
Proof.
  intros k a v e A E K V. apply rng_lor; [exact A|]. apply rng_shl; [exact E|].
  apply rng_le with 6; [lia|]. exact V.
Qed.
Ltac nth_at s i c Hc := destruct (nth_error s i) as [c|] eqn:Hc; [|apply nth_error_None in Hc; exfalso; lia].

Lemma c99_loop_goal : forall m i wc s fuel, 2 <= i <= 6 -> (Z.to_nat (6 - i) <= m)%nat -> (2 * m + 2 <= fuel)%nat -> s <> [] -> rng 18 wc -> (Z.to_nat i <= length s)%nat ->
  ggoal (fun s => c99_mbtowc_loop fuel i wc s (length s) None) s.
Proof.
  induction m as [|m IH]; intros i wc s fuel Hi Hm Hf Hs Hw Hl; destruct fuel as [|[|fuel]]; try lia.
  - assert (i = 6) by lia. subst i.
    assert (X : (forall t, c99_mbtowc_loop (S (S fuel)) 6 wc (s ++ t) (length (s ++ t)) None = Ok (6, Some wc)) \/
                (forall t, c99_mbtowc_loop (S (S fuel)) 6 wc (s ++ t) (length (s ++ t)) None = Ok (-1, None))).
    { setoid_rewrite c99_mbtowc_loop_S. change (6 <? 6) with false. cbv iota.
      match goal with |- context [if ?b then _ else _] => destruct b end; auto. }
    destruct X as [X|X].
    + apply ggoal_char with 6%nat wc; [lia|unfold ucs4; unfold rng in Hw; lia|exact X].
    + apply ggoal_ill; [lia|exact X].
  - destruct (Z.eq_dec i 6) as [->|N]; [apply IH; auto; lia|].
    destruct (Nat.le_gt_cases (length s) (Z.to_nat i)) as [Q|Q].
    + apply ggoal_few. rewrite c99_mbtowc_loop_S. cnd. reflexivity.
    + nth_at s (Z.to_nat i) c Hc. destruct (hexv c) as [v|] eqn:E.
      * apply ggoal_ext' with (fun s => c99_mbtowc_loop fuel (i + 1) (Z.lor wc (Z.shiftl v (4 * (5 - i)))) s (length s) None).
        -- intro t. apply c99_step with c; [lia|rewrite app_length; lia|now apply nth_app|exact E].
        -- apply IH; [lia|lia|lia|exact Hs| |lia]. apply lor_bound; [exact Hw|lia|lia|now apply hexv_rng in E].
      * apply ggoal_char with 1%nat 0x5c; [lia|unfold ucs4; lia|]. intro t. apply c99_stop with c; [lia|rewrite app_length; lia|now apply nth_app|exact E].
Qed.
Lemma c99_loop2_goal : forall m i wc s fuel, 2 <= i <= 10 -> (Z.to_nat (10 - i) <= m)%nat -> (2 * m + 2 <= fuel)%nat -> s <> [] -> rng 32 wc -> (Z.to_nat i <= length s)%nat ->
  ggoal (fun s => c99_mbtowc_loop2 fuel i wc s (length s) None) s.
Proof.
  induction m as [|m IH]; intros i wc s fuel Hi Hm Hf Hs Hw Hl; destruct fuel as [|[|fuel]]; try lia.
  - assert (i = 10) by lia. subst i.
    assert (X : (forall t, c99_mbtowc_loop2 (S (S fuel)) 10 wc (s ++ t) (length (s ++ t)) None = Ok (10, Some wc)) \/
                (forall t, c99_mbtowc_loop2 (S (S fuel)) 10 wc (s ++ t) (length (s ++ t)) None = Ok (-1, None))).
    { setoid_rewrite c99_mbtowc_loop2_S. change (10 <? 10) with false. cbv iota.
      match goal with |- context [if ?b then _ else _] => destruct b end; auto. }
    destruct X as [X|X].
    + apply ggoal_char with 10%nat wc; [lia|unfold ucs4; unfold rng in Hw; lia|exact X].
    + apply ggoal_ill; [lia|exact X].
  - destruct (Z.eq_dec i 10) as [->|N]; [apply IH; auto; lia|].
    destruct (Nat.le_gt_cases (length s) (Z.to_nat i)) as [Q|Q].
    + apply ggoal_few. rewrite c99_mbtowc_loop2_S. cnd. reflexivity.
    + nth_at s (Z.to_nat i) c Hc. destruct (hexv c) as [v|] eqn:E.
      * apply ggoal_ext' with (fun s => c99_mbtowc_loop2 fuel (i + 1) (Z.lor wc (u32 (Z.shiftl v (4 * (9 - i))))) s (length s) None).
        -- intro t. apply c99_step2 with c; [lia|rewrite app_length; lia|now apply nth_app|exact E].
        -- apply IH; [lia|lia|lia|exact Hs| |lia]. apply rng_lor; [exact Hw|]. apply rng_u32. lia.
      * apply ggoal_char with 1%nat 0x5c; [lia|unfold ucs4; lia|]. intro t. apply c99_stop2 with c; [lia|rewrite app_length; lia|now apply nth_app|exact E].
Qed.
Lemma java_loop2_goal : forall m i wc wc2 s fuel, 8 <= i <= 12 -> (Z.to_nat (12 - i) <= m)%nat -> (2 * m + 2 <= fuel)%nat -> s <> [] -> (Z.to_nat i <= length s)%nat ->
  ggoal (fun s => java_mbtowc_loop2 fuel i wc wc2 s (length s) None) s.
Proof.
  induction m as [|m IH]; intros i wc wc2 s fuel Hi Hm Hf Hs Hl; destruct fuel as [|[|fuel]]; try lia.
  - assert (i = 12) by lia. subst i.
    assert (X : (forall t, java_mbtowc_loop2 (S (S fuel)) 12 wc wc2 (s ++ t) (length (s ++ t)) None = Ok (1, Some 0x5c)) \/
                (exists w, ucs4 w /\ forall t, java_mbtowc_loop2 (S (S fuel)) 12 wc wc2 (s ++ t) (length (s ++ t)) None = Ok (12, Some w))).
    { setoid_rewrite java_mbtowc_loop2_S. change (12 <? 12) with false. cbv iota.
      match goal with |- context [if ?b then _ else _] => destruct b end; [left; reflexivity|right].
      eexists. split; [|intro t; reflexivity]. change (rng 32 (u32 (u32 (65536 + u32 (Z.shiftl (u32 (wc - 55296)) 10)) + u32 (wc2 - 56320)))). apply rng_u32. lia. }
    destruct X as [X|(w & W & X)].
    + apply ggoal_char with 1%nat 0x5c; [lia|unfold ucs4; lia|exact X].
    + apply ggoal_char with 12%nat w; [lia|exact W|exact X].
  - destruct (Z.eq_dec i 12) as [->|N]; [apply IH; auto; lia|].
    destruct (Nat.le_gt_cases (length s) (Z.to_nat i)) as [Q|Q].
    + apply ggoal_few. rewrite java_mbtowc_loop2_S. cnd. reflexivity.
    + nth_at s (Z.to_nat i) c Hc. destruct (hexv c) as [v|] eqn:E.
      * apply ggoal_ext' with (fun s => java_mbtowc_loop2 fuel (i + 1) wc (Z.lor wc2 (Z.shiftl v (4 * (11 - i)))) s (length s) None).
        -- intro t. apply java_step2 with c; [lia|rewrite app_length; lia|now apply nth_app|exact E].
        -- apply IH; [lia|lia|lia|exact Hs|lia].
      * apply ggoal_char with 1%nat 0x5c; [lia|unfold ucs4; lia|]. intro t. apply java_stop2 with c; [lia|rewrite app_length; lia|now apply nth_app|exact E].
Qed.
Lemma java_loop_goal : forall m i wc s fuel, 2 <= i <= 6 -> (Z.to_nat (6 - i) <= m)%nat -> (2 * m + 2 <= fuel)%nat -> s <> [] -> rng 18 wc -> (Z.to_nat i <= length s)%nat ->
  ggoal (fun s => java_mbtowc_loop fuel i wc s (length s) None) s.
Proof.
  induction m as [|m IH]; intros i wc s fuel Hi Hm Hf Hs Hw Hl; destruct fuel as [|[|fuel]]; try lia.
  - assert (i = 6) by lia. subst i.
    destruct ((wc >=? 0xd800) && (wc <? 0xe000)) eqn:S1.
    2:{ apply ggoal_char with 6%nat wc; [lia|unfold ucs4; unfold rng in Hw; lia|]. intro t. rewrite java_mbtowc_loop_S. change (6 <? 6) with false. cbv iota.
        destruct (wc >=? 0xd800); [|reflexivity]. cbn [andb] in S1. rewrite S1. reflexivity. }
    apply andb_true_iff in S1. destruct S1 as [S1 S2].
    assert (R : forall t, java_mbtowc_loop (S (S fuel)) 6 wc (s ++ t) (length (s ++ t)) None =
      if (wc >=? 0xdc00) then Ok (1, Some 0x5c) else
      if Nat.ltb (length (s ++ t)) 7 then Ok (-2, None) else
      rd (s ++ t) 6%nat (fun x4 => if negb (x4 =? 0x5c) then Ok (1, Some 0x5c) else
      if Nat.ltb (length (s ++ t)) 8 then Ok (-2, None) else
      rd (s ++ t) 7%nat (fun x5 => if negb (x5 =? 0x75) then Ok (1, Some 0x5c) else
      java_mbtowc_loop2 64 8 wc 0 (s ++ t) (length (s ++ t)) None))).
    { intro t. rewrite java_mbtowc_loop_S. change (6 <? 6) with false. cbv iota. rewrite S1, S2. reflexivity. }
    assert (R0 := R []). rewrite app_nil_r in R0.
    destruct (wc >=? 0xdc00) eqn:S3; [apply ggoal_char with 1%nat 0x5c; [lia|unfold ucs4; lia|exact R]|].
    destruct (Nat.lt_ge_cases (length s) 7) as [Q|Q]; [apply ggoal_few; rewrite R0; cnd; reflexivity|].
    nth_at s 6%nat c Hc. destruct (Z.eqb_spec c 0x5c) as [->|N].
    2:{ apply ggoal_char with 1%nat 0x5c; [lia|unfold ucs4; lia|]. intro t. rewrite R. pose proof (app_len _ s t). cnd. rd_ Hc. cnd. reflexivity. }
    destruct (Nat.lt_ge_cases (length s) 8) as [Q2|Q2]; [apply ggoal_few; rewrite R0; cnd; unfold rd; rewrite Hc; cnd; reflexivity|].
    nth_at s 7%nat c2 Hc2. destruct (Z.eqb_spec c2 0x75) as [->|N].
    2:{ apply ggoal_char with 1%nat 0x5c; [lia|unfold ucs4; lia|]. intro t. rewrite R. pose proof (app_len _ s t). cnd. rd_ Hc. cnd. rewrite (nth_app _ _ _ _ Hc2). cnd. reflexivity. }
    apply ggoal_ext' with (fun s => java_mbtowc_loop2 64 8 wc 0 s (length s) None).
    + intro t. rewrite R. pose proof (app_len _ s t). cnd. rd_ Hc. cnd. rewrite (nth_app _ _ _ _ Hc2). cnd. reflexivity.
    + apply java_loop2_goal with 4%nat; try lia. exact Hs.
  - destruct (Z.eq_dec i 6) as [->|N]; [apply IH; auto; lia|].
    destruct (Nat.le_gt_cases (length s) (Z.to_nat i)) as [Q|Q].
    + apply ggoal_few. rewrite java_mbtowc_loop_S. cnd. reflexivity.
    + nth_at s (Z.to_nat i) c Hc. destruct (hexv c) as [v|] eqn:E.
      * apply ggoal_ext' with (fun s => java_mbtowc_loop fuel (i + 1) (Z.lor wc (Z.shiftl v (4 * (5 - i)))) s (length s) None).
        -- intro t. apply java_step with c; [lia|rewrite app_length; lia|now apply nth_app|exact E].
        -- apply IH; [lia|lia|lia|exact Hs| |lia]. apply lor_bound; [exact Hw|lia|lia|now apply hexv_rng in E].
      * apply ggoal_char with 1%nat 0x5c; [lia|unfold ucs4; lia|]. intro t. apply java_stop with c; [lia|rewrite app_length; lia|now apply nth_app|exact E].
Qed.

Lemma d0goal_of : forall f s, ggoal (fun s => f s (length s)) s -> d0goal f 1 s.
Proof. intros f s H. exact H. Qed.

Lemma dec_c99_ok : dec_ok enc_c99 1 inv0 pend0 ucs4 /\ dec_stable enc_c99 inv0.
Proof.
  apply dec0_intro with c99_mbtowc; [reflexivity..|]. intros s S B. destruct s as [|c s]; [contradiction|]. apply byte_in in B. destruct B as [Hc B].
  apply d0goal_of. assert (Ln : forall t, length ((c :: s) ++ t) = Datatypes.S (length (s ++ t))) by reflexivity.
  destruct (Z.lt_ge_cases c 0xa0) as [L|L].
  2:{ apply ggoal_ill; [cbn; lia|]. intro t. unfold c99_mbtowc, rd. cbn [nth_error app]. cnd. reflexivity. }
  destruct (Z.eq_dec c 0x5c) as [->|N].
  2:{ apply ggoal_char with 1%nat c; [cbn; lia|unfold ucs4; lia|]. intro t. unfold c99_mbtowc, rd. cbn [nth_error app]. cnd. reflexivity. }
  destruct s as [|c2 s]; [apply ggoal_few; reflexivity|]. apply byte_in in B. destruct B as [Hc2 B].
  destruct (Z.eq_dec c2 0x75) as [->|N]; [|destruct (Z.eq_dec c2 0x55) as [->|N2]].
  - apply ggoal_ext' with (fun s => c99_mbtowc_loop 64 2 0 s (length s) None); [reflexivity|]. apply c99_loop_goal with 4%nat; try lia; try discriminate; [unfold rng; lia|cbn [length]; lia].
  - apply ggoal_ext' with (fun s => c99_mbtowc_loop2 64 2 0 s (length s) None); [reflexivity|]. apply c99_loop2_goal with 8%nat; try lia; try discriminate; [unfold rng; lia|cbn [length]; lia].
  - apply ggoal_char with 1%nat 0x5c; [cbn; lia|unfold ucs4; lia|]. intro t. unfold c99_mbtowc, rd. cbn [nth_error app length]. cnd. reflexivity.
Qed.
Lemma dec_java_ok : dec_ok enc_java 1 inv0 pend0 ucs4 /\ dec_stable enc_java inv0.
Proof.
  apply dec0_intro with java_mbtowc; [reflexivity..|]. intros s S B. destruct s as [|c s]; [contradiction|]. apply byte_in in B. destruct B as [Hc B].
  apply d0goal_of.
  destruct (Z.eq_dec c 0x5c) as [->|N].
  2:{ apply ggoal_char with 1%nat c; [cbn; lia|unfold ucs4; lia|]. intro t. unfold java_mbtowc, rd. cbn [nth_error app]. cnd. reflexivity. }
  destruct s as [|c2 s]; [apply ggoal_few; reflexivity|]. apply byte_in in B. destruct B as [Hc2 B].
  destruct (Z.eq_dec c2 0x75) as [->|N].
  - apply ggoal_ext' with (fun s => java_mbtowc_loop 64 2 0 s (length s) None); [reflexivity|]. apply java_loop_goal with 4%nat; try lia; try discriminate; [unfold rng; lia|cbn [length]; lia].
  - apply ggoal_char with 1%nat 0x5c; [cbn; lia|unfold ucs4; lia|]. intro t. unfold java_mbtowc, rd. cbn [nth_error app length]. cnd. reflexivity.
Qed.
