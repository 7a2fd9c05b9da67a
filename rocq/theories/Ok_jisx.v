(** Encoder contracts of EUC-JISX0213 and Shift_JISX0213. *)
From Coq Require Import ZArith List Bool Lia.
From Verif Require Import Base Loop Contract LoopLib Reflect Sx Rng EncLib DecLib TabLib SbLib.
From Verif Require Import TabIn_sb TabIn_cjk Tab_jis.
From Verif Require Import Conv_uni Conv_sb Conv_set_ja Conv_set_zh Conv_set_ko Conv_cjk Encodings Leaf CjkLib.
Import ListNotations.
Open Scope Z_scope.

(** ** From Unicode to JISX 0213 *)
(** The characters that may be followed by a combining one. *)
Definition j213_first : list Z := Eval vm_compute in
  let body := match jisx0213_from_ucs_level2_data with t => t end in
  nodup Z.eq_dec (fold_right (fun i acc => match tlookup body (Z.of_nat i) with Some v => if Z.land v 0x80 =? 0 then acc else v :: acc | None => acc end) [] (seq 0 11208)).
Definition j213_code (v : Z) : bool := if Z.land v 0x80 =? 0 then (0x2121 <=? v) && (v <? 65536) && (0x21 <=? Z.land v 0x7f) else mem j213_first v.
Lemma j213_data : forall i, 0 <= i < 11208 -> exists v, tlookup jisx0213_from_ucs_level2_data i = Some v /\ j213_code v = true.
Proof. apply tchk_sound. vm_cast_no_check (eq_refl true). Qed.
Definition j213_to (wc v : Z) : Prop := v = 0 \/ In v j213_first \/ (0x2121 <= v < 65536 /\ Z.land v 0x80 = 0 /\ 0x21 <= Z.land v 0x7f < 0x80).
Lemma to_j213 : forall wc, ucs4 wc -> exists v, ucs4_to_jisx0213 wc = Ok v /\ j213_to wc v.
Proof.
  intros wc U. unfold ucs4 in U. unfold ucs4_to_jisx0213.
  destruct (Z.ltb_spec wc (Z.shiftl 0xa9b 6)) as [L|L]; [|exists 0; split; [reflexivity|now left]].
  change (Z.shiftl 0xa9b 6) with 173760 in L.
  destruct (ti_jisx0213_from_ucs_level1 (Z.shiftr wc 6) ltac:(sx_arith)) as (x & E & R). unfold tget at 1. rewrite E. cbv zeta.
  destruct (x >=? 0) eqn:G; [apply geb_le' in G|exists 0; split; [reflexivity|now left]].
  set (i := Z.shiftr (Z.shiftl x 6 + Z.land wc 0x3f) 4).
  destruct (si_jisx0213_from_ucs_level2_2indx i) as (indx & used & E1 & E2 & A1 & A2 & A3).
  { unfold i. assert (0 <= Z.land wc 0x3f < 64) by (change 0x3f with (Z.ones 6); rewrite Z.land_ones by lia; apply Z.mod_pos_bound; lia).
    rewrite Z.shiftl_mul_pow2, Z.shiftr_div_pow2 by lia. change (2 ^ 6) with 64. change (2 ^ 4) with 16.
    split; [apply Z.div_pos; lia|apply Z.div_lt_upper_bound; lia]. }
  unfold sget. unfold tget at 1. rewrite E2. cbv beta.
  destruct (Z.eqb_spec (Z.land used (Z.shiftl 1 (Z.land wc 0xf))) 0) as [Z0|NZ]; cbn [negb]; [exists 0; split; [reflexivity|now left]|].
  assert (M : 0 <= Z.land wc 0xf < 16) by (change 0xf with (Z.ones 4); rewrite Z.land_ones by lia; apply Z.mod_pos_bound; lia).
  pose proof (pop_lt used _ A2 M NZ) as P.
  rewrite Z.add_0_r. unfold tget at 1. rewrite E1. cbv beta.
  match goal with |- context [tget _ (indx + ?e) _] => change e with (pop16 (Z.land used (Z.shiftl 1 (Z.land wc 0xf) - 1))) end.
  destruct (j213_data (indx + pop16 (Z.land used (Z.shiftl 1 (Z.land wc 0xf) - 1))) ltac:(lia)) as (v & V & C).
  unfold tget. rewrite V. exists v. split; [reflexivity|]. right. unfold j213_code in C.
  destruct (Z.eqb_spec (Z.land v 0x80) 0) as [Y|Y]; [right|left; now apply mem_In].
  rewrite !andb_true_iff, !Z.leb_le, Z.ltb_lt in C. repeat split; try tauto; try lia.
  change 0x7f with (Z.ones 7). rewrite Z.land_ones by lia. apply Z.mod_pos_bound. lia.
Qed.

(** ** Encoders that hold back one two-byte character *)
Fixpoint put (ro : nat) (bs : list Z) (r : wlog) : wlog := match bs with [] => r | b :: bs => put (S ro) bs ((ro, b) :: r) end.
Lemma put_inb : forall bs ro r n, inb r n -> bytes bs -> (ro + length bs <= n)%nat -> inb (put ro bs r) n.
Proof.
  induction bs as [|b bs IH]; intros ro r n R B L; [exact R|]. cbn [put]. cbn [length] in L. inversion B; subst.
  apply IH; [|assumption|lia]. constructor; [cbn; split; [lia|assumption]|exact R].
Qed.
Lemma put_find_old : forall bs ro r j, (j < ro)%nat -> lfind (put ro bs r) j = lfind r j.
Proof.
  induction bs as [|b bs IH]; intros ro r j L; [reflexivity|]. cbn [put]. rewrite IH by lia. cbn [lfind]. destruct (Nat.eqb_spec j ro); [lia|reflexivity].
Qed.
Lemma put_find : forall bs ro r j b, nth_error bs j = Some b -> lfind (put ro bs r) (ro + j) = Some b.
Proof.
  induction bs as [|b bs IH]; intros ro r j b' H; [destruct j; discriminate|]. cbn [put]. destruct j as [|j].
  - injection H as ->. rewrite Nat.add_0_r, put_find_old by lia. cbn [lfind]. now rewrite Nat.eqb_refl.
  - cbn [nth_error] in H. rewrite <- Nat.add_succ_comm. now apply IH.
Qed.
Lemma put_writes : forall bs, bytes bs -> writes (put 0 bs []) bs.
Proof. intros bs B. split; [apply put_inb; [constructor|exact B|lia]|]. intros j b H. exact (put_find bs 0 [] j b H). Qed.
Lemma put_app : forall a b ro r, put (ro + length a) b (put ro a r) = put ro (a ++ b) r.
Proof.
  induction a as [|x a IH]; intros b ro r; cbn [length put app].
  - now rewrite Nat.add_0_r.
  - rewrite <- IH. f_equal. lia.
Qed.

Section HOLDBACK.
Variables (e : funcs) (stl : list Z) (J : Z -> Z -> nat -> nat -> wlog -> Z -> res (Z * wlog * Z)) (comb : Z -> Z -> option Z).
(** What is written for wc when nothing is held back. *)
Definition fresh_ok (wc : Z) : Prop := exists o, match o with
  | None => forall ro n r ost, (ro = 0 \/ ro = 2)%nat -> J wc (Z.of_nat ro) n ro r ost = Ok (-1, r, ost)
  | Some (bs, ost') => bytes bs /\ (length bs <= 3)%nat /\ mem stl ost' = true /\
     forall ro n r ost, (ro = 0 \/ ro = 2)%nat -> (1 <= n)%nat -> (ro <= n)%nat ->
       J wc (Z.of_nat ro) n ro r ost = if Nat.leb (ro + length bs) n then Ok (Z.of_nat (ro + length bs), put ro bs r, ost') else Ok (-2, r, ost)
  end.
Hypothesis M0 : mem stl 0 = true.
Hypothesis FRESH : forall wc, ucs4 wc -> fresh_ok wc.
Hypothesis W0 : forall wc n, f_wc e wc n 0 = J wc 0 n 0%nat [] 0.
Hypothesis WST : forall st wc n, mem stl st = true -> st <> 0 -> ucs4 wc -> f_wc e wc n st =
  match comb st wc with
  | Some v => if Nat.leb 2 n then Ok (2, put 0 [Z.land (Z.shiftr v 8) 0xff; Z.land v 0xff] [], 0) else Ok (-2, [], st)
  | None => if Nat.ltb n 2 then Ok (-2, [], st) else J wc 2 n 2%nat (put 0 [Z.land (Z.shiftr st 8) 0xff; Z.land st 0xff] []) st
  end.
Hypothesis RST : exists f, f_reset e = Some f /\ forall st n, mem stl st = true ->
  f n st = if st =? 0 then Ok (0, [], st) else if Nat.ltb n 2 then Ok (-2, [], st) else Ok (2, put 0 [Z.land (Z.shiftr st 8) 0xff; Z.land st 0xff] [], st).

Lemma byte_land : forall x, byte (Z.land x 0xff).
Proof. intro x. unfold byte. change 0xff with (Z.ones 8). rewrite Z.land_ones by lia. apply Z.mod_pos_bound. lia. Qed.
Lemma pair_bytes : forall v, bytes [Z.land (Z.shiftr v 8) 0xff; Z.land v 0xff].
Proof. intro v. repeat constructor; apply byte_land. Qed.
Lemma inb_nil : forall n, inb [] n.
Proof. intro n. constructor. Qed.

Lemma holdback_ok : enc_ok e (fun ost => mem stl ost = true) ucs4.
Proof.
  constructor; [exact M0| |].
  - intros st wc S U. destruct (Z.eq_dec st 0) as [->|N].
    + destruct (FRESH wc U) as ([[bs ost']|] & F).
      * destruct F as (B & L & M & F). exists (Some (bs, ost')), (Nat.max 1 (length bs)). split; [unfold MAXNEED; lia|]. split; [|exact M].
        constructor.
        -- intros n Hn. exists []. split; [|apply inb_nil]. rewrite W0. change 0 with (Z.of_nat 0) at 1. rewrite F by lia.
           rewrite (proj2 (Nat.leb_gt _ _)) by lia. reflexivity.
        -- intros n H1 H2. exists (put 0 bs []). split; [|now apply put_writes]. rewrite W0. change 0 with (Z.of_nat 0) at 1. rewrite F by lia.
           rewrite (proj2 (Nat.leb_le _ _)) by lia. reflexivity.
      * exists None, 1%nat. split; [unfold MAXNEED; lia|]. split; [|exact I]. constructor; [lia|lia|].
        intros n Hn. exists []. split; [|apply inb_nil]. rewrite W0. change 0 with (Z.of_nat 0) at 1. apply F. now left.
    + destruct (comb st wc) as [v|] eqn:C.
      * exists (Some ([Z.land (Z.shiftr v 8) 0xff; Z.land v 0xff], 0)), 2%nat. split; [unfold MAXNEED; lia|]. split; [|exact M0].
        apply (enc_at_ok e wc st [Z.land (Z.shiftr v 8) 0xff; Z.land v 0xff] 0).
        -- intros n Hn. cbn [length] in Hn. exists []. split; [|apply inb_nil]. rewrite WST, C by assumption. rewrite (proj2 (Nat.leb_gt _ _)) by lia. reflexivity.
        -- intros n H1 H2. cbn [length] in H2. eexists. split; [|apply put_writes, pair_bytes]. rewrite WST, C by assumption. rewrite (proj2 (Nat.leb_le _ _)) by lia. reflexivity.
      * destruct (FRESH wc U) as ([[bs ost']|] & F).
        -- destruct F as (B & L & M & F). set (pre := [Z.land (Z.shiftr st 8) 0xff; Z.land st 0xff]) in *.
           exists (Some (pre ++ bs, ost')), (Nat.max 1 (length (pre ++ bs))). split; [unfold MAXNEED; rewrite app_length; unfold pre; cbn [length]; lia|]. split; [|exact M].
           constructor.
           ++ intros n Hn. rewrite app_length in Hn. unfold pre in Hn. cbn [length] in Hn. rewrite WST, C by assumption.
              destruct (Nat.ltb_spec n 2); [exists []; split; [reflexivity|apply inb_nil]|].
              change 2 with (Z.of_nat 2) at 1. rewrite F by lia. rewrite (proj2 (Nat.leb_gt _ _)) by lia.
              eexists. split; [reflexivity|]. apply put_inb; [apply inb_nil|apply pair_bytes|exact H].
           ++ intros n H1 H2. rewrite app_length in H2. unfold pre in H2. cbn [length] in H2. rewrite WST, C by assumption.
              destruct (Nat.ltb_spec n 2); [lia|]. change 2 with (Z.of_nat 2) at 1. rewrite F by lia. rewrite (proj2 (Nat.leb_le _ _)) by lia.
              eexists. split; [rewrite app_length; unfold pre; cbn [length]; reflexivity|]. fold pre.
              change (put 2 bs (put 0 pre [])) with (put (0 + length pre) bs (put 0 pre [])). rewrite put_app. apply put_writes. apply Forall_app. split; [apply pair_bytes|exact B].
        -- exists None, 2%nat. split; [unfold MAXNEED; lia|]. split; [|exact I]. constructor; [lia| |].
           ++ intros n Hn. exists []. split; [|apply inb_nil]. rewrite WST, C by assumption. destruct (Nat.ltb_spec n 2); [reflexivity|lia].
           ++ intros n Hn. rewrite WST, C by assumption. destruct (Nat.ltb_spec n 2); [lia|]. change 2 with (Z.of_nat 2) at 1. rewrite F by lia.
              eexists. split; [reflexivity|]. apply put_inb; [apply inb_nil|apply pair_bytes|exact Hn].
  - intros st S. destruct RST as (f & -> & R). destruct (Z.eqb_spec st 0) as [->|N].
    + exists [], 0. split; [unfold MAXNEED; cbn; lia|]. split; [exact M0|]. split; [cbn; lia|]. intros n _. exists []. rewrite R by exact S.
      split; [reflexivity|]. apply (put_writes []). constructor.
    + exists [Z.land (Z.shiftr st 8) 0xff; Z.land st 0xff], st. split; [unfold MAXNEED; cbn; lia|]. split; [exact S|]. split.
      * intros n Hn. cbn [length] in Hn. exists []. split; [|apply inb_nil]. rewrite R by exact S. destruct (Z.eqb_spec st 0); [contradiction|].
        rewrite (proj2 (Nat.ltb_lt _ _)) by lia. reflexivity.
      * intros n Hn. cbn [length] in Hn. eexists. split; [|apply put_writes, pair_bytes]. rewrite R by exact S. destruct (Z.eqb_spec st 0); [contradiction|].
        rewrite (proj2 (Nat.ltb_ge _ _)) by lia. reflexivity.
Qed.
End HOLDBACK.

Ltac bytes_ := repeat (apply Forall_cons; [first [assumption|unfold byte; lia]|]); apply Forall_nil.
(** The composed character, if the one held back and wc form one. *)
Fixpoint comb_find (t : tab) (idx : Z) (len : nat) (st : Z) : option Z :=
  match len with
  | O => None
  | S len => match tlookup t (2 * idx) with Some x => if x =? st then tlookup t (2 * idx + 1) else comb_find t (idx + 1) len st | None => None end
  end.
Definition comb_of (t : tab) (st wc : Z) : option Z :=
  if wc =? 0x2e5 then comb_find t 0 1 st else if wc =? 0x2e9 then comb_find t 1 1 st else if wc =? 0x300 then comb_find t 2 5 st else
  if wc =? 0x301 then comb_find t 7 4 st else if wc =? 0x309a then comb_find t 0xb 0xe st else None.

(** EUC-JISX0213 *)
Definition eucj_sts : list Z := Eval vm_compute in 0 :: map (fun v => Z.lor v 0x8080) j213_first.
Lemma eucj_fresh : forall wc, ucs4 wc -> fresh_ok eucj_sts (fun wc count n ro r ost => euc_jisx0213_wctomb_j2 count wc n ro r ost) wc.
Proof.
  intros wc U. pose proof U as U'. unfold ucs4 in U'. unfold fresh_ok, euc_jisx0213_wctomb_j2.
  destruct (Z.ltb_spec wc 0x80).
  { exists (Some ([wc], 0)). split; [bytes_|]. split; [cbn; lia|]. split; [reflexivity|].
    intros ro n r ost [-> | ->] N1 N2; cbn [length Nat.add].
    - change (Z.to_nat (Z.of_nat 0)) with 0%nat. rewrite Nat.ltb_antisym. destruct n; [lia|reflexivity].
    - change (Z.to_nat (Z.of_nat 2)) with 2%nat. unfold Nat.ltb. destruct (Nat.leb 3 n); reflexivity. }
  destruct ((wc >=? 0xff61) &&& (wc <=? 0xff9f)) eqn:K.
  { apply andb_true_iff in K. destruct K as [K1 K2]. apply geb_le' in K1. apply Z.leb_le in K2.
    exists (Some ([0x8e; wc - 0xfec0], 0)). split; [bytes_|]. split; [cbn; lia|]. split; [reflexivity|].
    intros ro n r ost [-> | ->] N1 N2; cbn [length Nat.add].
    - change (Z.to_nat (Z.of_nat 0 + 2)) with 2%nat. destruct (Nat.leb 2 n); reflexivity.
    - change (Z.to_nat (Z.of_nat 2 + 2)) with 4%nat. destruct (Nat.leb 4 n); reflexivity. }
  clear K. destruct (to_j213 wc U) as (v & -> & V). cbn [bind]. destruct V as [->|[V|(V & V1 & V2)]].
  - exists None. intros ro n r ost _. reflexivity.
  - unfold j213_first in V. cbn [In] in V.
    repeat (destruct V as [<-|V]; [eexists (Some ([], _)); split; [constructor|split; [cbn; lia|split; [|
      intros ro n r ost [-> | ->] N1 N2; cbn [length Nat.add]; destruct n as [|[|n]]; try lia; reflexivity]]]; reflexivity|]).
    contradiction.
  - rewrite V1. cbn [Z.eqb negb]. destruct (Z.eqb_spec v 0) as [|VN]; [lia|]. cbn [negb].
    assert (B1 : byte (Z.lor (Z.shiftr v 8) 0x80)). { assert (R : rng 8 (Z.lor (Z.shiftr v 8) 128)) by rng_. exact R. }
    assert (B2 : byte (Z.lor (Z.land v 0xff) 0x80)). { assert (R : rng 8 (Z.lor (Z.land v 255) 128)) by rng_. exact R. }
    destruct (Z.land v 0x8000 =? 0); cbn [negb].
    + exists (Some ([Z.lor (Z.shiftr v 8) 0x80; Z.lor (Z.land v 0xff) 0x80], 0)). split; [bytes_|]. split; [cbn; lia|]. split; [reflexivity|].
      intros ro n r ost [-> | ->] N1 N2; cbn [length Nat.add].
      * change (Z.to_nat (Z.of_nat 0 + 2)) with 2%nat. destruct (Nat.leb 2 n); reflexivity.
      * change (Z.to_nat (Z.of_nat 2 + 2)) with 4%nat. destruct (Nat.leb 4 n); reflexivity.
    + exists (Some ([0x8f; Z.lor (Z.shiftr v 8) 0x80; Z.lor (Z.land v 0xff) 0x80], 0)). split; [bytes_|]. split; [cbn; lia|]. split; [reflexivity|].
      intros ro n r ost [-> | ->] N1 N2; cbn [length Nat.add].
      * change (Z.to_nat (Z.of_nat 0 + 3)) with 3%nat. destruct (Nat.leb 3 n); reflexivity.
      * change (Z.to_nat (Z.of_nat 2 + 3)) with 5%nat. destruct (Nat.leb 5 n); reflexivity.
Qed.
Lemma enc_euc_jisx0213_ok : enc_ok enc_euc_jisx0213 (fun ost => mem eucj_sts ost = true) ucs4.
Proof.
  apply (holdback_ok enc_euc_jisx0213 eucj_sts (fun wc count n ro r ost => euc_jisx0213_wctomb_j2 count wc n ro r ost) (comb_of euc_jisx0213_comp_table_data)).
  - reflexivity.
  - exact eucj_fresh.
  - reflexivity.
  - intros st wc n S N U. change (f_wc enc_euc_jisx0213) with euc_jisx0213_wctomb. apply mem_In in S. unfold eucj_sts in S. cbn [In] in S.
    unfold comb_of, euc_jisx0213_wctomb.
    destruct S as [S|S]; [now subst|].
    repeat (destruct S as [<-|S]; [repeat (match goal with |- context [wc =? ?k] => destruct (wc =? k) end; [reflexivity|]); reflexivity|]). contradiction.
  - exists euc_jisx0213_reset. split; [reflexivity|]. intros st n S. unfold euc_jisx0213_reset. destruct (st =? 0); reflexivity.
Qed.

(** Shift_JISX0213 *)
Definition sjisx_st (v : Z) : Z :=
  let s1 := u32 (Z.shiftr v 8 - 0x21) in let s2 := u32 (Z.land v 0x7f - 0x21) in
  match shift_jisx0213_wctomb_j3 0 v s1 s2 0%nat 0%nat [] 0 with Ok (_, _, st) => st | _ => -1 end.
Definition sjisx_sts : list Z := Eval vm_compute in 0 :: map sjisx_st j213_first.
Lemma byte_u8 : forall x, byte (u8 x).
Proof. intro x. apply Z.mod_pos_bound. lia. Qed.
Lemma sjisx_j3 : forall v s1 s2, Z.land v 0x80 = 0 -> exists a b, byte a /\ byte b /\ forall count n ro r ost,
  shift_jisx0213_wctomb_j3 count v s1 s2 n ro r ost =
  if Nat.leb (Z.to_nat (count + 2)) n then Ok (count + 2, wr (wr r ro a) (Nat.add ro 1) b, 0) else Ok (-2, r, ost).
Proof.
  intros v s1 s2 H. unfold shift_jisx0213_wctomb_j3, shift_jisx0213_wctomb_j4, shift_jisx0213_wctomb_j5, shift_jisx0213_wctomb_j6. rewrite H. cbn [Z.eqb negb]. cbv zeta.
  repeat match goal with |- context [if ?c then _ else _] => lazymatch c with Nat.leb _ _ => fail | context [Nat.leb] => fail | _ => destruct c end end;
  do 2 eexists; (split; [apply byte_u8|]); (split; [apply byte_u8|]); intros; reflexivity.
Qed.
Ltac sj_one b := exists (Some ([b], 0)); split; [bytes_|]; split; [cbn; lia|]; split; [reflexivity|];
    intros ro n r ost [-> | ->] N1 N2; cbn [length Nat.add];
    [change (Z.to_nat (Z.of_nat 0)) with 0%nat; rewrite Nat.ltb_antisym; destruct n; [lia|reflexivity]
    |change (Z.to_nat (Z.of_nat 2)) with 2%nat; unfold Nat.ltb; destruct (Nat.leb 3 n); reflexivity].
Lemma sjisx_fresh : forall wc, ucs4 wc -> fresh_ok sjisx_sts (fun wc count n ro r ost => shift_jisx0213_wctomb_j2 count wc n ro r ost) wc.
Proof.
  intros wc U. pose proof U as U'. unfold ucs4 in U'. unfold fresh_ok, shift_jisx0213_wctomb_j2.
  destruct (((wc <? 0x80) &&& negb (wc =? 0x5c)) &&& negb (wc =? 0x7e)) eqn:K0.
  { assert (wc < 0x80) by (apply Z.ltb_lt; destruct (wc <? 0x80); [reflexivity|discriminate K0]). sj_one wc. }
  destruct (wc =? 0xa5). { sj_one 0x5c. }
  destruct (wc =? 0x203e). { sj_one 0x7e. }
  destruct ((wc >=? 0xff61) &&& (wc <=? 0xff9f)) eqn:K.
  { apply andb_true_iff in K. destruct K as [K1 K2]. apply geb_le' in K1. apply Z.leb_le in K2. sj_one (wc - 0xfec0). }
  clear K K0. destruct (to_j213 wc U) as (v & -> & V). cbn [bind]. destruct V as [->|[V|(V & V1 & V2)]].
  - exists None. intros ro n r ost _. reflexivity.
  - unfold j213_first in V. cbn [In] in V.
    repeat (destruct V as [<-|V]; [eexists (Some ([], _)); split; [constructor|split; [cbn; lia|split; [|
      intros ro n r ost [-> | ->] N1 N2; cbn [length Nat.add]; destruct n as [|[|n]]; try lia; reflexivity]]]; reflexivity|]).
    contradiction.
  - destruct (Z.eqb_spec v 0) as [|VN]; [lia|]. cbn [negb]. cbv zeta.
    repeat match goal with |- context [if ?c then _ else _] => lazymatch c with context [Nat.leb] => fail | _ => destruct c end end.
    all: match goal with |- context [shift_jisx0213_wctomb_j3 _ ?v ?s1 ?s2] => destruct (sjisx_j3 v s1 s2 V1) as (a & b & A & B & E) end.
    all: exists (Some ([a; b], 0)); (split; [bytes_|]); (split; [cbn; lia|]); (split; [reflexivity|]);
      intros ro n r ost [-> | ->] N1 N2; rewrite E; cbn [length Nat.add];
      [change (Z.to_nat (Z.of_nat 0 + 2)) with 2%nat; destruct (Nat.leb 2 n); reflexivity
      |change (Z.to_nat (Z.of_nat 2 + 2)) with 4%nat; destruct (Nat.leb 4 n); reflexivity].
Qed.
Lemma enc_shift_jisx0213_ok : enc_ok enc_shift_jisx0213 (fun ost => mem sjisx_sts ost = true) ucs4.
Proof.
  apply (holdback_ok enc_shift_jisx0213 sjisx_sts (fun wc count n ro r ost => shift_jisx0213_wctomb_j2 count wc n ro r ost) (comb_of shift_jisx0213_comp_table_data)).
  - reflexivity.
  - exact sjisx_fresh.
  - reflexivity.
  - intros st wc n S N U. change (f_wc enc_shift_jisx0213) with shift_jisx0213_wctomb. apply mem_In in S. unfold sjisx_sts in S. cbn [In] in S.
    unfold comb_of, shift_jisx0213_wctomb.
    destruct S as [S|S]; [now subst|].
    repeat (destruct S as [<-|S]; [repeat (match goal with |- context [wc =? ?k] => destruct (wc =? k) end; [reflexivity|]); reflexivity|]). contradiction.
  - exists shift_jisx0213_reset. split; [reflexivity|]. intros st n S. unfold shift_jisx0213_reset. destruct (st =? 0); reflexivity.
Qed.
