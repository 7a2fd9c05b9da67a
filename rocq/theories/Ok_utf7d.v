(** UTF-7: what the decoder makes of a byte sequence, and its contract. *)
From Coq Require Import ZArith List Bool Lia.
From Verif Require Import Base Loop Contract LoopLib Conv_uni Encodings Spec Rng Sx EncLib Ok_utf7e.
Import ListNotations.
Open Scope Z_scope.
Ltac Zify.zify_post_hook ::= idtac.

(** Characters that stand for themselves outside base64 (utf7.h:48-51). *)
Definition xdirect (c : Z) : bool := if c <? 128 then bit_of xdirect_tab c else false.

(** ** Reading base64 *)
(** Inside base64, p bits of value d are left over from the digits read before.  p = 6 only in mid-character. *)
Definition dword (p d : Z) : Z := if p =? 0 then 1 else if p =? 6 then 4 * d else if p =? 4 then 16 * d + 2 else 64 * d + 3.
Definition left_ok (p d : Z) : Prop := (p = 0 /\ d = 0) \/ (p = 4 /\ 0 <= d < 16) \/ (p = 2 /\ 0 <= d < 4).
Definition mid_ok (p d : Z) : Prop := left_ok p d \/ (p = 6 /\ 0 <= d < 64).
(** One digit of value i: leftover bits, bytes completed, their value. *)
Definition gstep (p d k wc i : Z) : Z * Z * Z * Z :=
  if p =? 0 then (6, i, k, wc) else (p - 2, i mod 2 ^ (p - 2), k + 1, wc * 256 + (d * 2 ^ (8 - p) + i / 2 ^ (p - 2))).
Inductive gres : Type := GFew | GIll | GChar (n : nat) (wc p d : Z).
Definition high (w : Z) : bool := (55296 <=? w) && (w <? 56320).
Definition low (w : Z) : bool := (56320 <=? w) && (w <? 57344).
(** Digits are read until two bytes are complete, or four if the first two are a high surrogate. *)
Fixpoint gather (s : list Z) (bc : nat) (p d k kmax wc : Z) : gres :=
  match s with
  | [] => GFew
  | c :: s =>
    match of_b64 c with
    | None => GIll
    | Some i =>
      let '(p, d, k, wc) := gstep p d k wc i in
      if k =? kmax then
        if (kmax =? 2) && high wc then gather s (S bc) p d k 4 wc
        else if kmax =? 4 then
          if low (wc mod 65536) then GChar (S bc) (65536 + (wc / 65536 - 55296) * 1024 + (wc mod 65536 - 56320)) p d else GIll
        else GChar (S bc) wc p d
      else gather s (S bc) p d k kmax wc
    end
  end.

(** ** One step of the code's loop *)
Lemma sweep2 : forall m n (P : Z -> Z -> bool), forallb (fun a => forallb (P a) (upto n)) (upto m) = true ->
  forall a b, 0 <= a < Z.of_nat m -> 0 <= b < Z.of_nat n -> P a b = true.
Proof. intros m n P H a b A B. exact (sweep n (P a) (sweep m _ H a A) b B). Qed.

Lemma shl8 : forall wc, 0 <= wc < 16777216 -> u32 (Z.shiftl wc 8) = Z.shiftl wc 8.
Proof. intros wc H. unfold u32. rewrite Z.shiftl_mul_pow2 by lia. apply Z.mod_small. change (2 ^ 8) with 256. lia. Qed.
Lemma lor3 : forall wc a b c, 0 <= wc < 16777216 -> Z.lor a b = c -> 0 <= c < 256 -> Z.lor (Z.lor (u32 (Z.shiftl wc 8)) a) b = wc * 256 + c.
Proof. intros wc a b c W E C. rewrite shl8 by exact W. rewrite <- Z.lor_assoc, E. now rewrite lor_shl by (pows; lia). Qed.

Lemma j3_eq : forall fuel bc p d count i k kmax state wc s n pwc ibo, mid_ok p d -> 0 <= i < 64 -> 0 <= wc < 16777216 -> 0 <= k <= 4 -> 0 <= bc <= LIM ->
  utf7_mbtowc_j3 (S fuel) bc (dword p d) count i k kmax state wc s n pwc ibo =
  let '(p', d', k', wc') := gstep p d k wc i in
  utf7_mbtowc_j4 fuel (bc + 1) (dword p' d') count k' kmax state wc' (skipn 1 s) n pwc ibo.
Proof.
  intros fuel bc p d count i k kmax state wc s n pwc ibo M I W K B. cbn [utf7_mbtowc_j3]. cbv zeta.
  assert (U : u32 (bc + 1) = bc + 1) by (unfold u32, LIM in *; rewrite Z.mod_small; lia). rewrite U.
  assert (U2 : u32 (k + 1) = k + 1) by (unfold u32; rewrite Z.mod_small; lia). rewrite U2. clear U U2.
  unfold gstep. destruct M as [[(-> & ->)|[(-> & D)|(-> & D)]]|(-> & D)]; cbn [Z.eqb Pos.eqb]; unfold dword; cbn [Z.eqb Pos.eqb].
  - change (Z.land 1 3 =? 1) with true. cbv iota. f_equal. rewrite Z.lor_0_r, Z.shiftl_mul_pow2 by lia. pows. lia.
  - pose proof (sweep2 16 64 (fun d i => (Z.land (16 * d + 2) 3 =? 2) && (Z.lor (Z.land (16 * d + 2) 0xfffffffc) (Z.shiftr i 2) =? d * 16 + i / 4) && (Z.lor (Z.shiftl (Z.land i 3) 6) 3 =? 64 * (i mod 4) + 3) && (d * 16 + i / 4 <? 256)) ltac:(vm_compute; reflexivity) d i D I) as X.
    cbv beta in X. apply andb_prop in X. destruct X as (X & X4). apply andb_prop in X. destruct X as (X & X3). apply andb_prop in X. destruct X as (X1 & X2). apply Z.eqb_eq in X1, X2, X3. rewrite X1. cbn [Z.eqb Pos.eqb].
    change (4 - 2 =? 0) with false. change (4 - 2 =? 6) with false. change (4 - 2 =? 4) with false. cbv iota. change (4 - 2) with 2. change (8 - 4) with 4. pows. rewrite X3. rewrite (lor3 wc _ _ _ W X2); [reflexivity|]. split; [|lia]. assert (0 <= i / 4) by eucl. lia.
  - pose proof (sweep2 4 64 (fun d i => (Z.land (64 * d + 3) 3 =? 3) && (Z.lor (Z.land (64 * d + 3) 0xfffffffc) i =? d * 64 + i)) ltac:(vm_compute; reflexivity) d i D I) as X.
    cbv beta in X. apply andb_prop in X. destruct X as (X1 & X2). apply Z.eqb_eq in X1, X2. rewrite X1. cbn [Z.eqb Pos.eqb].
    change (2 - 2 =? 0) with true. cbv iota. change (2 - 2) with 0. change (8 - 2) with 6. pows. rewrite Z.div_1_r. rewrite (lor3 wc _ _ _ W X2) by lia. reflexivity.
  - pose proof (sweep2 64 64 (fun d i => (Z.land (4 * d) 3 =? 0) && (Z.lor (Z.land (4 * d) 0xfffffffc) (Z.shiftr i 4) =? d * 4 + i / 16) && (Z.lor (Z.shiftl (Z.land i 0xf) 4) 2 =? 16 * (i mod 16) + 2) && (d * 4 + i / 16 <? 256)) ltac:(vm_compute; reflexivity) d i D I) as X.
    cbv beta in X. apply andb_prop in X. destruct X as (X & X4). apply andb_prop in X. destruct X as (X & X3). apply andb_prop in X. destruct X as (X1 & X2). apply Z.eqb_eq in X1, X2, X3. rewrite X1. cbn [Z.eqb Pos.eqb].
    change (6 - 2 =? 0) with false. change (6 - 2 =? 6) with false. change (6 - 2 =? 4) with true. cbv iota. change (6 - 2) with 4. change (8 - 6) with 2. pows. rewrite X3. rewrite (lor3 wc _ _ _ W X2); [reflexivity|]. split; [|lia]. assert (0 <= i / 16) by eucl. lia.
Qed.

(** ** The whole loop *)
Definition gview (count : nat) (state : Z) (ibo : Z) (g : gres) : dres :=
  match g with
  | GFew => DFew count (state, ibo)
  | GIll => DIll count (state, ibo)
  | GChar k wc p d => DChar (count + k) wc (dword p d, ibo)
  end.
Lemma loop_digit : forall fuel bc bst count k kmax state wc c s n pwc ibo i, of_b64 c = Some i ->
  utf7_mbtowc_loop (S fuel) bc bst count k kmax state wc (c :: s) n pwc ibo =
  utf7_mbtowc_j3 fuel bc bst count i k kmax state wc (c :: s) n pwc ibo.
Proof.
  intros fuel bc bst count k kmax state wc c s n pwc ibo i E. cbn [utf7_mbtowc_loop]. unfold rd. cbn [nth_error]. unfold of_b64 in E.
  change 0x41 with 65. change 0x5a with 90. change 0x61 with 97. change 0x7a with 122. change 0x30 with 48. change 0x39 with 57. change 0x2b with 43. change 0x2f with 47.
  rewrite !Z.geb_leb.
  destruct (65 <=? c); [destruct (c <=? 90); cbn [andb] in *|cbn [andb] in *].
  - injection E as <-. reflexivity.
  - destruct (97 <=? c); [destruct (c <=? 122); cbn [andb] in *|cbn [andb] in *]; [injection E as <-; reflexivity| |];
     (destruct (48 <=? c); [destruct (c <=? 57); cbn [andb] in *|cbn [andb] in *]; [injection E as <-; reflexivity| |]);
     (destruct (c =? 43); [injection E as <-; reflexivity|]); (destruct (c =? 47); [injection E as <-; reflexivity|discriminate]).
  - destruct (97 <=? c); [destruct (c <=? 122); cbn [andb] in *|cbn [andb] in *]; [injection E as <-; reflexivity| |];
     (destruct (48 <=? c); [destruct (c <=? 57); cbn [andb] in *|cbn [andb] in *]; [injection E as <-; reflexivity| |]);
     (destruct (c =? 43); [injection E as <-; reflexivity|]); (destruct (c =? 47); [injection E as <-; reflexivity|discriminate]).
Qed.
Lemma loop_other : forall fuel bc bst count k kmax state wc c s n pwc ibo, of_b64 c = None ->
  utf7_mbtowc_loop (S fuel) bc bst count k kmax state wc (c :: s) n pwc ibo =
  if negb (Z.land bst 0xfffffffc =? 0) then ck (2 * count) (fun k11 => Ok (-1 - k11, pwc, state, ibo))
  else if negb (bc =? 0) then ck (2 * count) (fun k12 => Ok (-1 - k12, pwc, state, ibo))
  else if c =? 45 then ck (count + 1) (fun count => utf7_mbtowc_j2 fuel count s n pwc ibo)
  else utf7_mbtowc_j2 fuel count (c :: s) n pwc ibo.
Proof.
  intros fuel bc bst count k kmax state wc c s n pwc ibo E. cbn [utf7_mbtowc_loop]. unfold rd. cbn [nth_error]. unfold of_b64 in E.
  change 0x41 with 65. change 0x5a with 90. change 0x61 with 97. change 0x7a with 122. change 0x30 with 48. change 0x39 with 57. change 0x2b with 43. change 0x2f with 47.
  rewrite !Z.geb_leb.
  destruct (65 <=? c); [destruct (c <=? 90); cbn [andb] in *|cbn [andb] in *]; [discriminate| |];
    (destruct (97 <=? c); [destruct (c <=? 122); cbn [andb] in *|cbn [andb] in *]; [discriminate| |];
     (destruct (48 <=? c); [destruct (c <=? 57); cbn [andb] in *|cbn [andb] in *]; [discriminate| |]);
     (destruct (c =? 43); [discriminate|]); (destruct (c =? 47); [discriminate|reflexivity])).
Qed.
Lemma of_b64_range : forall c i, of_b64 c = Some i -> 0 <= i < 64 /\ 0 <= c < 128.
Proof.
  intros c i E. unfold of_b64 in E.
  repeat match type of E with context [?a <=? ?b] => destruct (Z.leb_spec a b) | context [?a =? ?b] => destruct (Z.eqb_spec a b) end; cbn [andb] in E; try discriminate; injection E as <-; lia.
Qed.
Lemma ck_ok : forall (A : Type) v (k : Z -> res A), - 2147483648 <= v <= 2147483647 -> ck v k = k v.
Proof. intros A v k H. unfold ck. destruct (Z.leb_spec (-0x80000000) v), (Z.leb_spec v 0x7fffffff); try lia; reflexivity. Qed.
Lemma gstep_ok : forall p d k wc i p' d' k' wc', mid_ok p d -> 0 <= i < 64 -> 0 <= k -> 0 <= wc < 2 ^ (8 * k) -> gstep p d k wc i = (p', d', k', wc') ->
  mid_ok p' d' /\ (p = 0 -> p' = 6 /\ k' = k /\ wc' = wc) /\ (p <> 0 -> k' = k + 1 /\ left_ok p' d' /\ wc' / 256 = wc) /\ 0 <= wc' < 2 ^ (8 * k').
Proof.
  intros p d k wc i p' d' k' wc' M I K W E. unfold gstep in E.
  assert (PW : 2 ^ (8 * (k + 1)) = 2 ^ (8 * k) * 256) by (replace (8 * (k + 1)) with (8 * k + 8) by lia; rewrite Z.pow_add_r by lia; reflexivity).
  assert (G : forall b, 0 <= b < 256 -> (wc * 256 + b) / 256 = wc /\ 0 <= wc * 256 + b < 2 ^ (8 * (k + 1))).
  { intros b B. rewrite PW. split; [|lia]. rewrite Z.div_add_l by lia. rewrite Z.div_small by lia. lia. }
  destruct M as [[(-> & ->)|[(-> & D)|(-> & D)]]|(-> & D)]; cbn [Z.eqb Pos.eqb] in E.
  - injection E as <- <- <- <-. split; [right; lia|]. split; [lia|]. split; [lia|exact W].
  - change (4 - 2) with 2 in E. change (8 - 4) with 4 in E. revert E. pows. intro E. injection E as <- <- <- <-.
    assert (B : 0 <= d * 16 + i / 4 < 256) by eucl. destruct (G _ B) as (G1 & G2). split; [left; right; right; split; [reflexivity|eucl]|]. split; [lia|]. split; [|exact G2]. intros _. split; [reflexivity|]. split; [right; right; split; [reflexivity|eucl]|exact G1].
  - change (2 - 2) with 0 in E. change (8 - 2) with 6 in E. revert E. pows. rewrite Z.div_1_r, Z.mod_1_r. intro E. injection E as <- <- <- <-.
    assert (B : 0 <= d * 64 + i < 256) by lia. destruct (G _ B) as (G1 & G2). split; [left; left; split; reflexivity|]. split; [lia|]. split; [|exact G2]. intros _. split; [reflexivity|]. split; [left; split; reflexivity|exact G1].
  - change (6 - 2) with 4 in E. change (8 - 6) with 2 in E. revert E. pows. intro E. injection E as <- <- <- <-.
    assert (B : 0 <= d * 4 + i / 16 < 256) by eucl. destruct (G _ B) as (G1 & G2). split; [left; right; left; split; [reflexivity|eucl]|]. split; [lia|]. split; [|exact G2]. intros _. split; [reflexivity|]. split; [right; left; split; [reflexivity|eucl]|exact G1].
Qed.
(** What is known of the bytes read so far. *)
Definition gok (k kmax wc : Z) : Prop :=
  0 <= wc < 2 ^ (8 * k) /\ ((kmax = 2 /\ 0 <= k < 2) \/ (kmax = 4 /\ 2 <= k < 4 /\ high (wc / 2 ^ (8 * (k - 2))) = true)).
Lemma dview_few : forall count w st ibo, 0 <= count -> dview (Ok (-2 - 2 * count, w, st, ibo)) = Some (DFew (Z.to_nat count) (st, ibo)).
Proof.
  intros. unfold dview. destruct (Z.ltb_spec (-2 - 2 * count) 0); [|lia]. replace (-1 - (-2 - 2 * count)) with (1 + 2 * count) by lia. rewrite Z.even_add_mul_2. cbn [Z.even].
  do 3 f_equal. replace (-2 - (-2 - 2 * count)) with (count * 2) by lia. now rewrite Z.div_mul by lia.
Qed.
Lemma dview_ill : forall count w st ibo, 0 <= count -> dview (Ok (-1 - 2 * count, w, st, ibo)) = Some (DIll (Z.to_nat count) (st, ibo)).
Proof.
  intros. unfold dview. destruct (Z.ltb_spec (-1 - 2 * count) 0); [|lia]. replace (-1 - (-1 - 2 * count)) with (0 + 2 * count) by lia. rewrite Z.even_add_mul_2. cbn [Z.even].
  do 3 f_equal. replace (0 + 2 * count) with (count * 2) by lia. now rewrite Z.div_mul by lia.
Qed.
Lemma dview_char : forall count w st ibo, 0 <= count -> dview (Ok (count, Some w, st, ibo)) = Some (DChar (Z.to_nat count) w (st, ibo)).
Proof. intros. unfold dview. destruct (Z.ltb_spec count 0); [lia|reflexivity]. Qed.

Lemma gather_eq : forall s fuel bc p d count k kmax wc state n ibo, (4 * length s <= fuel)%nat -> s <> [] ->
  mid_ok p d -> gok k kmax wc -> n = (count + bc + length s)%nat -> Z.of_nat n <= LIM ->
  (bc <> 0%nat \/ match s with c :: _ => of_b64 c <> None | [] => True end) ->
  dview (utf7_mbtowc_loop fuel (Z.of_nat bc) (dword p d) (Z.of_nat count) k kmax state wc s n None ibo) =
  Some (gview count state ibo (gather s bc p d k kmax wc)).
Proof.
  induction s as [|c s IH]; intros fuel bc p d count k kmax wc state n ibo F S M G N L Q; [congruence|]. clear S.
  cbn [length] in *. destruct fuel as [|fuel]; [lia|]. cbn [gather].
  destruct (of_b64 c) as [i|] eqn:E.
  - rewrite (loop_digit _ _ _ _ _ _ _ _ _ _ _ _ _ i E). destruct (of_b64_range c i E) as (I & C). destruct fuel as [|fuel]; [lia|].
    assert (W : 0 <= wc < 16777216 /\ 0 <= k < 4).
    { destruct G as (G1 & G2). assert (0 <= k <= 3) by lia. assert (2 ^ (8 * k) <= 2 ^ 24) by (apply Z.pow_le_mono_r; lia). change (2 ^ 24) with 16777216 in *. lia. }
    destruct W as (W & KB). rewrite j3_eq; [|assumption|assumption|assumption|lia|lia].
    pose proof (gstep_ok p d k wc i) as GS. destruct (gstep p d k wc i) as [[[p' d'] k'] wc']. 
    specialize (GS _ _ _ _ M I ltac:(lia) (proj1 G) eq_refl). destruct GS as (M' & G0 & GN & W').
    cbn [skipn]. replace (Z.of_nat bc + 1) with (Z.of_nat (S bc)) by lia. destruct fuel as [|fuel]; [lia|].
    (* going on with more digits *)
    assert (GO : forall kmax', gok k' kmax' wc' -> dview (utf7_mbtowc_j5 fuel (Z.of_nat (S bc)) (dword p' d') (Z.of_nat count) k' kmax' state wc' s n None ibo) = Some (gview count state ibo (gather s (S bc) p' d' k' kmax' wc'))).
    { intros kmax' G'. destruct fuel as [|fuel]; [lia|]. cbn [utf7_mbtowc_j5]. cbv zeta. unfold LIM in *.
      assert (U : u32 (u32 (Z.of_nat count + Z.of_nat (S bc)) + 1) = Z.of_nat (count + S bc + 1)).
      { unfold u32. rewrite (Z.mod_small (Z.of_nat count + Z.of_nat (S bc))) by lia. rewrite Z.mod_small by lia. lia. }
      rewrite U, ltb_to_nat. destruct (Nat.ltb_spec n (count + S bc + 1)) as [X|X].
      - assert (length s = 0%nat) by lia. destruct s; [|discriminate]. cbn [gather gview]. rewrite !ck_ok by lia. rewrite dview_few by lia. now rewrite Nat2Z.id.
      - destruct s as [|c2 s]; [cbn [length] in N; lia|]. apply IH; try assumption; try (cbn [length] in *; lia); try congruence; left; congruence. }
    assert (DONE : forall w, dview (Ok (s32 (u32 (Z.of_nat count + Z.of_nat (S bc))), Some w, dword p' d', ibo)) = Some (gview count state ibo (GChar (S bc) w p' d'))).
    { intro w. unfold LIM in *. assert (U : s32 (u32 (Z.of_nat count + Z.of_nat (S bc))) = Z.of_nat (count + S bc)).
      { unfold s32, u32. rewrite !Z.mod_small by (rewrite ?Z.mod_small by lia; lia). destruct (Z.ltb_spec (Z.of_nat count + Z.of_nat (S bc)) 0x80000000); lia. }
      rewrite U, dview_char by lia. cbn [gview]. now rewrite Nat2Z.id. }
    cbn [utf7_mbtowc_j4]. cbv zeta.
    destruct (Z.eqb_spec k' kmax) as [KE|KE].
    + assert (P0 : p <> 0) by (intro; destruct G0 as (_ & -> & _); [assumption|]; destruct G as (_ & G2); lia).
      destruct (GN P0) as (K' & LO & WD).
      assert (B3 : (Z.land (dword p' d') 3 =? 0) = false).
      { apply Z.eqb_neq. rewrite land3. unfold dword. destruct LO as [(-> & ->)|[(-> & D)|(-> & D)]]; cbn [Z.eqb Pos.eqb]; eucl. }
      destruct G as (G1 & [(-> & G2)|(-> & G2 & G3)]).
      * assert (k = 1) by lia. subst k k'. assert (HI : (2 =? 2) &&& ((wc' >=? 0xd800) &&& (wc' <? 0xdc00)) = high wc').
        { unfold high. rewrite Z.geb_leb. change 0xd800 with 55296. change 0xdc00 with 56320. cbn. destruct (55296 <=? wc'); reflexivity. }
        rewrite HI. change (2 =? 2) with true. cbn [andb]. destruct (high wc') eqn:HW.
        -- apply GO. split; [exact W'|]. right. split; [reflexivity|]. split; [lia|]. change (8 * (1 + 1 - 2)) with 0. change (2 ^ 0) with 1. now rewrite Z.div_1_r.
        -- rewrite B3. change (2 =? 4) with false. cbv iota. apply DONE.
      * assert (k = 3) by lia. subst k k'. change (4 =? 2) with false. cbn [andb]. rewrite B3. change (4 =? 4) with true. cbv iota.
        assert (HB : Z.shiftr wc' 0x10 = wc' / 65536) by (rewrite Z.shiftr_div_pow2 by lia; reflexivity). rewrite HB.
        assert (LB : Z.land wc' 0xffff = wc' mod 65536) by (change 0xffff with (Z.ones 16); rewrite Z.land_ones by lia; reflexivity). rewrite LB.
        assert (HH : high (wc' / 65536) = true).
        { change (8 * (3 - 2)) with 8 in G3. change (2 ^ 8) with 256 in G3. rewrite <- WD in G3. rewrite Z.div_div in G3 by lia. exact G3. }
        assert (H1 : (wc' / 65536 >=? 0xd800) &&& (wc' / 65536 <? 0xdc00) = true).
        { unfold high in HH. rewrite Z.geb_leb. change 0xd800 with 55296. change 0xdc00 with 56320. destruct (55296 <=? wc' / 65536); [exact HH|discriminate]. }
        rewrite H1. cbn [negb].
        assert (L1 : (wc' mod 65536 >=? 0xdc00) &&& (wc' mod 65536 <? 0xe000) = low (wc' mod 65536)).
        { unfold low. rewrite Z.geb_leb. change 0xdc00 with 56320. change 0xe000 with 57344. destruct (56320 <=? wc' mod 65536); reflexivity. }
        rewrite L1. destruct (low (wc' mod 65536)) eqn:LW; cbn [negb].
        -- rewrite DONE. do 2 f_equal. unfold high in HH. unfold low in LW. apply andb_prop in HH, LW. destruct HH as (HH1 & HH2), LW as (LW1 & LW2).
           apply Z.leb_le in HH1, LW1. apply Z.ltb_lt in HH2, LW2. set (a := wc' / 65536) in *. set (b := wc' mod 65536) in *. clearbody a b.
           change 0xd800 with 55296. change 0xdc00 with 56320. rewrite Z.shiftl_mul_pow2 by lia. change (2 ^ 0xa) with 1024. change 0x10000 with 65536.
           unfold u32. rewrite (Z.mod_small (a - 55296)) by lia. rewrite (Z.mod_small ((a - 55296) * 1024)) by lia. rewrite (Z.mod_small (b - 56320)) by lia. rewrite (Z.mod_small (65536 + _)) by lia. now rewrite Z.mod_small by lia.
        -- unfold LIM in *. rewrite ck_ok by lia. rewrite dview_ill by lia. cbn [gview]. now rewrite Nat2Z.id.
    + apply GO. split; [exact W'|]. destruct G as (G1 & G2). destruct (Z.eq_dec p 0) as [P0|P0].
      * destruct (G0 P0) as (_ & -> & ->). exact G2.
      * destruct (GN P0) as (-> & _ & WD). destruct G2 as [(-> & G2)|(-> & G2 & G3)]; [left; lia|]. right. split; [reflexivity|]. split; [lia|].
        assert (k = 2) by lia. subst k. change (8 * (2 - 2)) with 0 in G3. change (2 ^ 0) with 1 in G3. rewrite Z.div_1_r in G3. change (2 ^ (8 * (2 + 1 - 2))) with 256. now rewrite WD.
  - destruct Q as [Q|Q]; [|congruence]. rewrite loop_other by exact E. cbn [gview]. unfold LIM in *.
    assert (U : dview (ck (2 * Z.of_nat count) (fun k12 => Ok (-1 - k12, None, state, ibo))) = Some (DIll count (state, ibo))).
    { rewrite ck_ok by lia. rewrite dview_ill by lia. now rewrite Nat2Z.id. }
    destruct (negb (Z.land (dword p d) 0xfffffffc =? 0)); [exact U|]. destruct (Z.eqb_spec (Z.of_nat bc) 0); [lia|]. exact U.
Qed.

(** ** The decoder as a function of the bytes *)
(** Some (p, d): inside base64; None: plain text. *)
Definition dstate (m : mode) : Z := match m with None => 0 | Some (p, d) => dword p d end.
Definition dmode_ok (m : mode) : Prop := match m with None => True | Some (p, d) => left_ok p d end.
Definition plain1 (c : Z) : dres := if xdirect c then DChar 1 c (0, 0) else DIll 0 (0, 0).
Definition base7 (p d : Z) (s : list Z) : dres := gview 0 (dword p d) 0 (gather s 0 p d 0 2 0).
Definition plain7 (s : list Z) : dres :=
  match s with
  | [] => DFew 0 (0, 0)
  | c :: s =>
    if xdirect c then DChar 1 c (0, 0)
    else if c =? 43 then
      match s with
      | [] => DFew 0 (0, 0)
      | c2 :: _ => if c2 =? 45 then DChar 2 43 (0, 0)
                   else dshift 1 (match of_b64 c2 with Some _ => base7 0 0 s | None => plain1 c2 end)
      end
    else DIll 0 (0, 0)
  end.
Definition dec7 (m : mode) (s : list Z) : dres :=
  match m with
  | None => plain7 s
  | Some (p, d) =>
    match s with
    | [] => DFew 0 (dword p d, 0)
    | c :: s' =>
      match of_b64 c with
      | Some _ => base7 p d s
      | None => if d =? 0 then if c =? 45 then dshift 1 (plain7 s') else plain1 c else DIll 0 (dword p d, 0)
      end
    end
  end.

Lemma xdirect_tget : forall (A : Type) c (k1 k2 : res A), 0 <= c ->
  (if c <? 0x80 then tget xdirect_tab (Z.shiftr c 3) (fun x2 => if negb (Z.land (Z.shiftr x2 (Z.land c 7)) 1 =? 0) then k1 else k2) else k2) = if xdirect c then k1 else k2.
Proof.
  intros A c k1 k2 W. unfold xdirect. change 0x80 with 128. destruct (Z.ltb_spec c 128) as [L|L]; [|reflexivity].
  match goal with |- tget ?t ?i ?k = _ => destruct (tget_bit _ t c k (conj W L) xdirect_in) as (x & _ & -> & B) end. rewrite B. reflexivity.
Qed.
Lemma gview_shift : forall c st g, gview c st 0 g = dshift c (gview 0 st 0 g).
Proof. intros c st [| |k wc p d]; cbn; f_equal; lia. Qed.
Lemma dshift_dshift : forall a b d, dshift a (dshift b d) = dshift (a + b) d.
Proof. intros a b [k wc i|k i|k i]; cbn; f_equal; lia. Qed.
Lemma dview_ck_ill : forall count w st, 0 <= count <= LIM -> dview (ck (2 * count) (fun k => Ok (-1 - k, w, st, 0))) = Some (DIll (Z.to_nat count) (st, 0)).
Proof. intros. unfold LIM in *. rewrite ck_ok by lia. now apply dview_ill. Qed.
Lemma dview_ck_few : forall count w st, 0 <= count <= LIM -> dview (ck (2 * count) (fun k2 => ck (-2 - k2) (fun k3 => Ok (k3, w, st, 0)))) = Some (DFew (Z.to_nat count) (st, 0)).
Proof. intros. unfold LIM in *. rewrite !ck_ok by lia. now apply dview_few. Qed.

(** The character that follows when base64 is left without a digit. *)
Lemma inactive_plain1 : forall fuel count c s n, (2 <= fuel)%nat -> 0 <= c -> c <> 43 -> n = (count + length (c :: s))%nat -> Z.of_nat n <= LIM ->
  dview (utf7_mbtowc_inactive fuel (Z.of_nat count) 0 (c :: s) n None 0) = Some (dshift count (plain1 c)).
Proof.
  intros fuel count c s n F C N Hn L. do 2 (destruct fuel as [|fuel]; [lia|]). cbn [utf7_mbtowc_inactive]. cbv zeta. cbn [length] in Hn. unfold LIM in *.
  rewrite ck_ok by lia. replace (Z.of_nat count + 1) with (Z.of_nat (count + 1)) by lia. rewrite ltb_to_nat. destruct (Nat.ltb_spec n (count + 1)); [lia|].
  unfold rd at 1. cbn [nth_error]. rewrite xdirect_tget by exact C. unfold plain1. destruct (xdirect c).
  - rewrite ck_ok by lia. rewrite dview_char by lia. cbn [dshift]. do 2 f_equal. lia.
  - cbn [utf7_mbtowc_j]. change 0x2b with 43. destruct (Z.eqb_spec c 43); [congruence|]. cbv zeta. rewrite dview_ck_ill by (unfold LIM; lia). cbn [dshift]. do 2 f_equal. lia.
Qed.
Lemma inactive_eq : forall s fuel count n, (4 * length s + 6 <= fuel)%nat -> bytes s -> n = (count + length s)%nat -> Z.of_nat n <= LIM ->
  dview (utf7_mbtowc_inactive fuel (Z.of_nat count) 0 s n None 0) = Some (dshift count (plain7 s)).
Proof.
  intros s fuel count n F B Hn L. destruct fuel as [|fuel]; [lia|]. cbn [utf7_mbtowc_inactive]. cbv zeta. pose proof L as L'. unfold LIM in L'.
  rewrite ck_ok by lia. replace (Z.of_nat count + 1) with (Z.of_nat (count + 1)) by lia. rewrite ltb_to_nat.
  destruct s as [|c s]; cbn [length] in *.
  - destruct (Nat.ltb_spec n (count + 1)); [|lia]. rewrite dview_ck_few by lia. cbn. do 2 f_equal. lia.
  - destruct (Nat.ltb_spec n (count + 1)); [lia|]. inversion B as [|? ? Bc Bs]; subst. unfold byte in Bc.
    unfold rd at 1. cbn [nth_error]. rewrite xdirect_tget by lia. cbn [plain7]. destruct (xdirect c).
    + rewrite ck_ok by lia. rewrite dview_char by lia. cbn [dshift]. do 2 f_equal. lia.
    + destruct fuel as [|fuel]; [lia|]. cbn [utf7_mbtowc_j]. change 0x2b with 43. cbv zeta. destruct (Z.eqb_spec c 43) as [->|C].
      * rewrite ck_ok by lia. replace (Z.of_nat count + 2) with (Z.of_nat (count + 2)) by lia. rewrite ltb_to_nat.
        destruct s as [|c2 s]; cbn [length] in *.
        -- destruct (Nat.ltb_spec (count + 1) (count + 2)); [|lia]. rewrite dview_ck_few by lia. cbn. do 2 f_equal. lia.
        -- destruct (Nat.ltb_spec (count + S (S (length s))) (count + 2)); [lia|]. unfold rd at 1. cbn [nth_error]. change 0x2d with 45.
           destruct (Z.eqb_spec c2 45) as [->|C2].
           ++ rewrite ck_ok by lia. rewrite dview_char by lia. cbn [dshift]. do 2 f_equal. lia.
           ++ rewrite ck_ok by lia. replace (Z.of_nat count + 1) with (Z.of_nat (count + 1)) by lia. destruct fuel as [|fuel]; [lia|]. cbn [utf7_mbtowc_active skipn]. cbv zeta.
              destruct (of_b64 c2) as [i|] eqn:E.
              ** change 0 with (Z.of_nat 0) at 1. change 1 with (dword 0 0) at 1. rewrite gather_eq; try (cbn [length]; lia); try congruence.
                 --- rewrite gview_shift, dshift_dshift. reflexivity.
                 --- left; left; auto.
                 --- split; [cbn; lia|]. left. lia.
                 --- right. congruence.
              ** destruct fuel as [|fuel]; [lia|]. rewrite loop_other by exact E. change (Z.land 1 0xfffffffc =? 0) with true. change (0 =? 0) with true. cbn [negb].
                 destruct (Z.eqb_spec c2 45); [congruence|]. destruct fuel as [|fuel]; [lia|]. cbn [utf7_mbtowc_j2]. cbv zeta. rewrite dshift_dshift.
                 inversion Bs as [|? ? Bc2 _]; subst. unfold byte in Bc2. apply inactive_plain1; try (cbn [length]; lia). intros ->. discriminate E.
      * rewrite dview_ck_ill by lia. cbn [dshift]. do 2 f_equal. lia.
Qed.
Lemma dword_facts : forall p d, left_ok p d -> (Z.land (dword p d) 3 =? 0) = false /\ (Z.land (dword p d) 0xfffffffc =? 0) = (d =? 0).
Proof.
  intros p d P. unfold dword. destruct P as [(-> & ->)|[(-> & D)|(-> & D)]]; cbn [Z.eqb Pos.eqb]; [split; reflexivity| |].
  - assert (X : negb (Z.land (16 * d + 2) 3 =? 0) && Bool.eqb (Z.land (16 * d + 2) 0xfffffffc =? 0) (d =? 0) = true).
    { apply (sweep 16 (fun d => negb (Z.land (16 * d + 2) 3 =? 0) && Bool.eqb (Z.land (16 * d + 2) 0xfffffffc =? 0) (d =? 0))); [vm_compute; reflexivity|lia]. }
    apply andb_prop in X. destruct X as (X & Y). apply Bool.eqb_prop in Y. split; [now apply negb_true_iff|exact Y].
  - assert (X : negb (Z.land (64 * d + 3) 3 =? 0) && Bool.eqb (Z.land (64 * d + 3) 0xfffffffc =? 0) (d =? 0) = true).
    { apply (sweep 4 (fun d => negb (Z.land (64 * d + 3) 3 =? 0) && Bool.eqb (Z.land (64 * d + 3) 0xfffffffc =? 0) (d =? 0))); [vm_compute; reflexivity|lia]. }
    apply andb_prop in X. destruct X as (X & Y). apply Bool.eqb_prop in Y. split; [now apply negb_true_iff|exact Y].
Qed.
Lemma dshift_0 : forall d, dshift 0 d = d.
Proof. intros [k wc i|k i|k i]; reflexivity. Qed.
Theorem dec7_eq : forall m s, dmode_ok m -> s <> [] -> bytes s -> Z.of_nat (length s) <= LIM -> dec enc_utf7 s (dstate m, 0) = Some (dec7 m s).
Proof.
  intros m s M S B L. unfold dec. cbv [f_mb enc_utf7 fst snd]. unfold utf7_mbtowc. cbv zeta. destruct m as [[p d]|]; cbn [dmode_ok dstate] in *.
  - destruct (dword_facts p d M) as (F1 & F2). rewrite F1. cbn [negb]. change (8 + 4 * length s)%nat with (Datatypes.S (7 + 4 * length s)). cbn [utf7_mbtowc_active]. cbv zeta.
    destruct s as [|c s]; [congruence|]. cbn [dec7]. destruct (of_b64 c) as [i|] eqn:E.
    + change 0 with (Z.of_nat 0) at 1 2. rewrite gather_eq; try (cbn [length]; lia); try congruence.
      * reflexivity.
      * left. exact M.
      * split; [cbn; lia|]. left. lia.
      * right. congruence.
    + change (7 + 4 * length (c :: s))%nat with (Datatypes.S (6 + 4 * length (c :: s))). rewrite loop_other by exact E. rewrite F2. change (0 =? 0) with true. cbn [negb].
      inversion B as [|? ? Bc Bs]; subst. unfold byte in Bc.
      destruct (d =? 0); cbn [negb]; [|now rewrite dview_ck_ill by (unfold LIM in *; lia)].
      change (6 + 4 * length (c :: s))%nat with (Datatypes.S (5 + 4 * length (c :: s))). cbn [utf7_mbtowc_j2]. cbv zeta.
      destruct (Z.eqb_spec c 45) as [->|C].
      * unfold LIM in *. cbn [length] in *. rewrite ck_ok by lia. change (0 + 1) with (Z.of_nat 1). apply inactive_eq; try assumption; unfold LIM; lia.
      * rewrite <- (dshift_0 (plain1 c)). change 0 with (Z.of_nat 0) at 1. apply inactive_plain1; try (cbn [length] in *; lia). intros ->. discriminate E.
  - change (Z.land 0 3 =? 0) with true. cbn [negb]. cbn [dec7]. rewrite <- (dshift_0 (plain7 s)). change 0 with (Z.of_nat 0) at 1. apply inactive_eq; try assumption; lia.
Qed.

(** ** The contract *)
Definition dinv7 (x : Z * Z) : Prop := (exists m, dmode_ok m /\ fst x = dstate m) /\ snd x = 0.
Definition pend7 (x : Z * Z) : bool := false.
Definition gok_res (s : list Z) (g : gres) (bc : nat) : Prop :=
  match g with GFew => True | GIll => True | GChar k wc p d => (bc < k <= bc + length s)%nat /\ ucs4 wc /\ left_ok p d end.
Lemma gather_ok : forall s bc p d k kmax wc, mid_ok p d -> gok k kmax wc -> gok_res s (gather s bc p d k kmax wc) bc.
Proof.
  induction s as [|c s IH]; intros bc p d k kmax wc M G; cbn [gather]; [exact I|].
  destruct (of_b64 c) as [i|] eqn:E; [|exact I]. destruct (of_b64_range c i E) as (R & _).
  pose proof (gstep_ok p d k wc i) as GS. destruct (gstep p d k wc i) as [[[p' d'] k'] wc'].
  assert (K0 : 0 <= k) by (destruct G as (_ & G); lia).
  specialize (GS _ _ _ _ M R K0 (proj1 G) eq_refl). destruct GS as (M' & G0 & GN & W').
  assert (GO : forall kmax', gok k' kmax' wc' -> gok_res (c :: s) (gather s (S bc) p' d' k' kmax' wc') bc).
  { intros kmax' G'. specialize (IH (S bc) p' d' k' kmax' wc' M' G'). unfold gok_res in *. destruct (gather s (S bc) p' d' k' kmax' wc'); auto. cbn [length]. destruct IH as (A & B & C). split; [lia|]. split; assumption. }
  destruct (Z.eqb_spec k' kmax) as [KE|KE].
  - assert (P0 : p <> 0) by (intro; destruct G0 as (_ & -> & _); [assumption|]; destruct G as (_ & G2); lia).
    destruct (GN P0) as (K' & LO & WD). destruct G as (G1 & [(-> & G2)|(-> & G2 & G3)]).
    + assert (k = 1) by lia. subst k k'. change (2 =? 2) with true. cbn [andb]. destruct (high wc') eqn:HW.
      * apply GO. split; [exact W'|]. right. split; [reflexivity|]. split; [lia|]. change (8 * (1 + 1 - 2)) with 0. change (2 ^ 0) with 1. now rewrite Z.div_1_r.
      * change (2 =? 4) with false. cbv iota. change (2 ^ (8 * (1 + 1))) with 65536 in W'. cbn [gok_res length]. unfold ucs4. repeat split; auto; lia.
    + assert (k = 3) by lia. subst k k'. change (4 =? 2) with false. change (4 =? 4) with true. cbn [andb]. destruct (low (wc' mod 65536)) eqn:LW; [|exact I].
      assert (HH : high (wc' / 65536) = true).
      { change (8 * (3 - 2)) with 8 in G3. change (2 ^ 8) with 256 in G3. rewrite <- WD in G3. rewrite Z.div_div in G3 by lia. exact G3. }
      unfold high in HH. unfold low in LW. apply andb_prop in HH, LW. destruct HH as (HH1 & HH2), LW as (LW1 & LW2). apply Z.leb_le in HH1, LW1. apply Z.ltb_lt in HH2, LW2.
      cbn [gok_res length]. unfold ucs4. repeat split; auto; lia.
  - apply GO. split; [exact W'|]. destruct G as (G1 & G2). destruct (Z.eq_dec p 0) as [P0|P0].
    + destruct (G0 P0) as (_ & -> & ->). exact G2.
    + destruct (GN P0) as (-> & _ & WD). destruct G2 as [(-> & G2)|(-> & G2 & G3)]; [left; lia|]. right. split; [reflexivity|]. split; [lia|].
      assert (k = 2) by lia. subst k. change (8 * (2 - 2)) with 0 in G3. change (2 ^ 0) with 1 in G3. rewrite Z.div_1_r in G3. change (2 ^ (8 * (2 + 1 - 2))) with 256. now rewrite WD.
Qed.
Lemma gather_app : forall s t bc p d k kmax wc, gather s bc p d k kmax wc <> GFew -> gather (s ++ t) bc p d k kmax wc = gather s bc p d k kmax wc.
Proof.
  induction s as [|c s IH]; intros t bc p d k kmax wc H; cbn [gather app] in *; [congruence|].
  destruct (of_b64 c) as [i|]; [|reflexivity]. destruct (gstep p d k wc i) as [[[p' d'] k'] wc'].
  destruct (k' =? kmax); [|now apply IH]. destruct ((kmax =? 2) && high wc'); [now apply IH|]. reflexivity.
Qed.
Lemma gok0 : gok 0 2 0.
Proof. split; [cbn; lia|]. left. lia. Qed.

(** A result on s is in order: what it says about how much was used, and what happens when more input follows. *)
Definition res7 (m : mode) (s : list Z) : Prop :=
  match dec7 m s with
  | DChar k wc i => (1 <= k <= length s)%nat /\ ucs4 wc /\ dinv7 i /\ forall t, dec7 m (s ++ t) = DChar k wc i
  | DIll k i => (k + 1 <= length s)%nat /\ (exists m', dmode_ok m' /\ i = (dstate m', 0) /\ dec7 m' (skipn k s) = DIll 0 i) /\ forall t, dec7 m (s ++ t) = DIll k i
  | DFew k i => (k <= length s)%nat /\ exists m', dmode_ok m' /\ i = (dstate m', 0) /\ (k = 0%nat -> m' = m) /\
      forall t, dec7 m (s ++ t) = dshift k (dec7 m' (skipn k s ++ t))
  end.
Lemma inv_plain : dinv7 (0, 0).
Proof. split; [|reflexivity]. exists None. split; [exact I|reflexivity]. Qed.
Lemma plain1_res : forall c s, of_b64 c = None -> plain7 (c :: s) = plain1 c.
Proof. intros c s E. unfold plain1. cbn [plain7]. destruct (xdirect c); [reflexivity|]. destruct (Z.eqb_spec c 43) as [->|]; [discriminate E|reflexivity]. Qed.
Lemma base7_res : forall p d c s, left_ok p d -> of_b64 c <> None -> res7 (Some (p, d)) (c :: s).
Proof.
  intros p d c s M E. unfold res7. cbn [dec7 app]. destruct (of_b64 c) as [i|] eqn:Ec; [|congruence].
  pose proof (gather_ok (c :: s) 0 p d 0 2 0 (or_introl M) gok0) as G. pose proof (gather_app (c :: s)) as GA.
  unfold base7. specialize (GA) . destruct (gather (c :: s) 0 p d 0 2 0) as [| |k wc p' d'] eqn:X; cbn [gview].
  - split; [lia|]. exists (Some (p, d)). split; [exact M|]. split; [reflexivity|]. split; [reflexivity|]. intro t. cbn [skipn app dec7]. rewrite Ec. now rewrite dshift_0.
  - split; [cbn [length]; lia|]. split.
    + exists (Some (p, d)). split; [exact M|]. split; [reflexivity|]. cbn [skipn dec7]. rewrite Ec. unfold base7. now rewrite X.
    + intro t. specialize (GA t 0%nat p d 0 2 0). rewrite X in GA. cbn [app] in GA. rewrite GA by discriminate. reflexivity.
  - cbn [gok_res] in G. destruct G as (G1 & G2 & G3). split; [cbn [Nat.add]; lia|]. split; [exact G2|]. split; [split; [|reflexivity]; now exists (Some (p', d'))|].
    intro t. specialize (GA t 0%nat p d 0 2 0). rewrite X in GA. cbn [app] in GA. rewrite GA by discriminate. reflexivity.
Qed.
Lemma xdirect_ucs4 : forall c, byte c -> ucs4 c.
Proof. unfold byte, ucs4. lia. Qed.
Lemma plain1_cases : forall c, byte c -> plain1 c = DChar 1 c (0, 0) \/ plain1 c = DIll 0 (0, 0).
Proof. intros c B. unfold plain1. destruct (xdirect c); auto. Qed.
(** A result that is that of m' after k bytes. *)
Lemma res7_shift : forall m m' s k, dmode_ok m' -> (1 <= k <= length s)%nat -> res7 m' (skipn k s) ->
  (forall t, dec7 m (s ++ t) = dshift k (dec7 m' (skipn k s ++ t))) -> res7 m s.
Proof.
  intros m m' s k M K R E. pose proof (E []) as E0. rewrite !app_nil_r in E0. unfold res7 in *. rewrite E0.
  assert (LS : length (skipn k s) = (length s - k)%nat) by apply skipn_length.
  destruct (dec7 m' (skipn k s)) as [j wc i|j i|j i] eqn:X; cbn [dshift].
  - destruct R as (A & B & C & D). split; [lia|]. split; [exact B|]. split; [exact C|]. intro t. rewrite E, D. reflexivity.
  - destruct R as (A & m2 & B1 & B2 & B3 & B4). split; [lia|]. exists m2. split; [exact B1|]. split; [exact B2|]. split; [lia|]. intro t. rewrite E, B4, dshift_dshift.
    rewrite skipn_skipn. reflexivity.
  - destruct R as (A & (m2 & B1 & B2 & B3) & C). split; [lia|]. split; [|intro t; rewrite E, C; reflexivity]. exists m2. split; [exact B1|]. split; [exact B2|]. rewrite skipn_skipn in B3. exact B3.
Qed.
Lemma plain_one : forall c s, byte c -> of_b64 c = None -> res7 None (c :: s).
Proof.
  intros c s B E. unfold res7. cbn [dec7 app]. rewrite (plain1_res c s E). unfold plain1. destruct (xdirect c) eqn:X.
  - split; [cbn [length]; lia|]. split; [now apply xdirect_ucs4|]. split; [apply inv_plain|]. intro t. rewrite plain1_res by exact E. unfold plain1. now rewrite X.
  - split; [cbn [length]; lia|]. split.
    + exists None. split; [exact I|]. split; [reflexivity|]. cbn [skipn dec7]. rewrite plain1_res by exact E. unfold plain1. now rewrite X.
    + intro t. rewrite plain1_res by exact E. unfold plain1. now rewrite X.
Qed.
Lemma plain_res : forall s, bytes s -> res7 None s.
Proof.
  intros [|c s] B.
  - unfold res7. cbn. split; [lia|]. exists None. split; [exact I|]. split; [reflexivity|]. split; [reflexivity|]. intro t. now rewrite dshift_0.
  - inversion B as [|? ? Bc Bs]; subst. destruct (xdirect c) eqn:X.
    + unfold res7. cbn [dec7 plain7 app]. rewrite X. split; [cbn [length]; lia|]. split; [now apply xdirect_ucs4|]. split; [apply inv_plain|]. intro t. reflexivity.
    + destruct (Z.eqb_spec c 43) as [->|C].
      * destruct s as [|c2 s].
        -- unfold res7. cbn [dec7 plain7 app]. rewrite X. cbn [Z.eqb Pos.eqb]. split; [lia|]. exists None. split; [exact I|]. split; [reflexivity|]. split; [reflexivity|]. intro t. cbn [skipn app dec7]. now rewrite dshift_0.
        -- destruct (Z.eqb_spec c2 45) as [->|C2].
           ++ unfold res7. cbn [dec7 plain7 app]. rewrite X. cbn [Z.eqb Pos.eqb]. split; [cbn [length]; lia|]. split; [unfold ucs4; lia|]. split; [apply inv_plain|]. reflexivity.
           ++ inversion Bs as [|? ? Bc2 _]; subst. destruct (of_b64 c2) as [i|] eqn:E.
              ** apply (res7_shift None (Some (0, 0)) _ 1); [left; auto|cbn [length]; lia|apply base7_res; [left; auto|cbn; congruence]|].
                 intro t. cbn [dec7 plain7 app skipn]. rewrite X. cbn [Z.eqb Pos.eqb]. destruct (Z.eqb_spec c2 45); [congruence|]. now rewrite E.
              ** apply (res7_shift None None _ 1); [exact I|cbn [length]; lia|cbn [skipn]; now apply plain_one|].
                 intro t. cbn [skipn app]. cbn [dec7]. rewrite (plain1_res c2) by exact E. cbn [plain7]. rewrite X. cbn [Z.eqb Pos.eqb]. destruct (Z.eqb_spec c2 45); [congruence|]. now rewrite E.
      * unfold res7. assert (E : forall t, dec7 None ((c :: s) ++ t) = DIll 0 (0, 0)).
        { intro t. cbn [dec7 plain7 app]. rewrite X. destruct (Z.eqb_spec c 43); [congruence|reflexivity]. }
        pose proof (E []) as E0. rewrite app_nil_r in E0. rewrite E0. split; [cbn [length]; lia|]. split; [|exact E]. exists None. split; [exact I|]. split; [reflexivity|]. exact E0.
Qed.
Lemma dec7_res : forall m s, dmode_ok m -> bytes s -> s <> [] -> res7 m s.
Proof.
  intros [[p d]|] s M B S; [|now apply plain_res]. destruct s as [|c s]; [congruence|]. inversion B as [|? ? Bc Bs]; subst.
  destruct (of_b64 c) as [i|] eqn:E; [apply base7_res; [exact M|congruence]|].
  destruct (Z.eqb_spec d 0) as [->|D].
  - destruct (Z.eqb_spec c 45) as [->|C].
    + apply (res7_shift _ None _ 1); [exact I|cbn [length]; lia|cbn [skipn]; now apply plain_res|]. intro t. reflexivity.
    + assert (P : forall t, dec7 (Some (p, 0)) ((c :: s) ++ t) = dec7 None ((c :: s) ++ t)).
      { intro t. cbn [dec7 app]. rewrite E. change (0 =? 0) with true. destruct (Z.eqb_spec c 45); [congruence|]. now rewrite plain1_res. }
      pose proof (plain_one c s Bc E) as R. unfold res7 in *. pose proof (P []) as P0. rewrite app_nil_r in P0. rewrite P0.
      destruct (dec7 None (c :: s)) as [k wc i|k i|k i] eqn:X.
      * destruct R as (R1 & R2 & R3 & R4). split; [exact R1|]. split; [exact R2|]. split; [exact R3|]. intro t. now rewrite P.
      * exfalso. cbn [dec7] in X. rewrite plain1_res in X by exact E. destruct (plain1_cases c Bc) as [Y|Y]; rewrite Y in X; discriminate.
      * destruct R as (R1 & R2 & R3). split; [exact R1|]. split; [exact R2|]. intro t. now rewrite P.
  - unfold res7. assert (P : forall t, dec7 (Some (p, d)) ((c :: s) ++ t) = DIll 0 (dword p d, 0)).
    { intro t. cbn [dec7 app]. rewrite E. destruct (Z.eqb_spec d 0); [congruence|reflexivity]. }
    pose proof (P []) as P0. rewrite app_nil_r in P0. rewrite P0. split; [cbn [length]; lia|]. split; [|exact P]. exists (Some (p, d)). split; [exact M|]. split; [reflexivity|]. exact P0.
Qed.

Theorem utf7_dec_ok : dec_ok enc_utf7 1 dinv7 pend7 ucs4 /\ dec_stable enc_utf7 dinv7.
Proof.
  assert (V : forall i, dinv7 i -> exists m, dmode_ok m /\ i = (dstate m, 0)).
  { intros [a b] ((m & M & E) & Z0). cbn in *. subst. eauto. }
  split; constructor.
  - apply inv_plain.
  - intros i Hi. destruct (V i Hi) as (m & M & ->). apply inv_plain.
  - reflexivity.
  - intros s i Hi S B L. destruct (V i Hi) as (m & M & ->). exists (dec7 m s). split; [now apply dec7_eq|].
    pose proof (dec7_res m s M B S) as R. unfold res7 in R. unfold dres_ok. destruct (dec7 m s) as [k wc i'|k i'|k i'].
    + destruct R as (A & U & C & _). split; [lia|]. split; [exact U|]. split; [exact C|]. split; [destruct C as (_ & C); rewrite C; exact Hi|]. split; [reflexivity|]. intros; lia.
    + destruct R as (A & m' & M' & -> & K0 & _). split; [exact A|]. split; [split; [now exists m'|reflexivity]|]. intros K. now rewrite (K0 K).
    + destruct R as (A & (m' & M' & -> & _) & _). split; [lia|]. split; [now exists m'|reflexivity].
  - intros i Hi. exact I.
  - intros s t i k wc i' Hi B Bt L S D. destruct (V i Hi) as (m & M & ->). rewrite app_length in L.
    rewrite dec7_eq in D by (assumption || lia). pose proof (dec7_res m s M B S) as R. unfold res7 in R. injection D as D. rewrite D in R. destruct R as (_ & _ & _ & R).
    rewrite dec7_eq; [now rewrite R|exact M|destruct s; [congruence|discriminate]|now apply Forall_app|rewrite app_length; lia].
  - intros s t i k i' Hi B Bt L S D. destruct (V i Hi) as (m & M & ->). rewrite app_length in L.
    rewrite dec7_eq in D by (assumption || lia). pose proof (dec7_res m s M B S) as R. unfold res7 in R. injection D as D. rewrite D in R. destruct R as (_ & _ & R).
    rewrite dec7_eq; [now rewrite R|exact M|destruct s; [congruence|discriminate]|now apply Forall_app|rewrite app_length; lia].
  - intros s t i k i' Hi B Bt L S D N. destruct (V i Hi) as (m & M & ->). rewrite app_length in L.
    rewrite dec7_eq in D by (assumption || lia). pose proof (dec7_res m s M B S) as R. unfold res7 in R. injection D as D. rewrite D in R. destruct R as (A & m' & M' & -> & _ & R).
    right. exists (dec7 m' (skipn (Datatypes.S k) s ++ t)). split.
    + apply dec7_eq; [exact M'|exact N| |rewrite app_length, skipn_length; lia]. apply Forall_app. split; [|exact Bt]. rewrite <- (firstn_skipn (Datatypes.S k) s) in B. now apply Forall_app in B.
    + rewrite dec7_eq; [now rewrite R|exact M|destruct s; [congruence|discriminate]|now apply Forall_app|rewrite app_length; lia].
  - intros s i k wc i' Hi B L S D. destruct (V i Hi) as (m & M & ->). pose proof D as D'.
    rewrite dec7_eq in D by (assumption || lia). pose proof (dec7_res m s M B S) as R. unfold res7 in R. injection D as D. rewrite D in R. destruct R as (_ & _ & (_ & R) & _). rewrite R. exact D'.
  - intros s i k i' Hi B L S D. destruct (V i Hi) as (m & M & ->).
    rewrite dec7_eq in D by (assumption || lia). pose proof (dec7_res m s M B S) as R. unfold res7 in R. injection D as D. rewrite D in R. destruct R as (A & (m' & M' & -> & R) & _).
    rewrite dec7_eq; [now rewrite R|exact M'| | |rewrite skipn_length; lia].
    + intro X. apply (f_equal (@length Z)) in X. rewrite skipn_length in X. cbn in X. lia.
    + rewrite <- (firstn_skipn k s) in B. now apply Forall_app in B.
Qed.
