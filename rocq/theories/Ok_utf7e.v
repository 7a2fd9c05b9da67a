(** UTF-7: what the encoder writes, as arithmetic on base64 digits. *)
From Coq Require Import ZArith List Bool Lia.
From Verif Require Import Base Loop Contract LoopLib Conv_uni Encodings Spec Rng Sx EncLib.
Import ListNotations.
Open Scope Z_scope.
Ltac Zify.zify_post_hook ::= idtac.

(** ** Finite sweeps *)
Definition upto (n : nat) : list Z := map Z.of_nat (seq 0 n).
Lemma sweep : forall n (P : Z -> bool), forallb P (upto n) = true -> forall i, 0 <= i < Z.of_nat n -> P i = true.
Proof.
  intros n P H i I. rewrite forallb_forall in H. apply H. unfold upto. apply in_map_iff. exists (Z.to_nat i). split; [lia|]. apply in_seq. lia.
Qed.

(** The base64 digit of value i, and its inverse. *)
Definition b64 (i : Z) : Z :=
  if i <? 26 then i + 65 else if i <? 52 then i - 26 + 97 else if i <? 62 then i - 52 + 48 else if i =? 62 then 43 else 47.
Definition of_b64 (c : Z) : option Z :=
  if (65 <=? c) && (c <=? 90) then Some (c - 65) else if (97 <=? c) && (c <=? 122) then Some (c - 97 + 26)
  else if (48 <=? c) && (c <=? 57) then Some (c - 48 + 52) else if c =? 43 then Some 62 else if c =? 47 then Some 63 else None.
Lemma of_b64_b64 : forall i, 0 <= i < 64 -> of_b64 (b64 i) = Some i.
Proof.
  intros i H. assert (A : (match of_b64 (b64 i) with Some j => j =? i | None => false end) = true) by (apply (sweep 64 (fun i => match of_b64 (b64 i) with Some j => j =? i | None => false end)); [vm_compute; reflexivity|lia]).
  destruct (of_b64 (b64 i)) as [j|]; [|discriminate]. f_equal. lia.
Qed.
Lemma b64_byte : forall i, 0 <= i < 64 -> byte (b64 i).
Proof. intros i H. unfold byte, b64. repeat match goal with |- context [?a <? ?b] => destruct (Z.ltb_spec a b) | |- context [?a =? ?b] => destruct (Z.eqb_spec a b) end; lia. Qed.

Definition bit_of (t : tab) (c : Z) : bool := match tlookup t (Z.shiftr c 3) with Some x => negb (Z.land (Z.shiftr x (Z.land c 7)) 1 =? 0) | None => false end.
(** Characters that are written as themselves (utf7.h:38-43), and those that would continue base64 (utf7.h:57-61). *)
Definition direct (c : Z) : bool := if c <? 128 then bit_of direct_tab c else false.
Definition xbase64 (c : Z) : bool := if c <? 128 then bit_of xbase64_tab c else false.
Lemma tget_bit : forall (A : Type) t c (k : Z -> res A), 0 <= c < 128 -> (forall i, 0 <= i < 16 -> exists x, tlookup t i = Some x) ->
  exists x, tlookup t (Z.shiftr c 3) = Some x /\ tget t (Z.shiftr c 3) k = k x /\ bit_of t c = negb (Z.land (Z.shiftr x (Z.land c 7)) 1 =? 0).
Proof.
  intros A t c k H T. destruct (T (Z.shiftr c 3)) as (x & E).
  { rewrite Z.shiftr_div_pow2 by lia. change (2 ^ 3) with 8. split; [apply Z.div_pos; lia|apply Z.div_lt_upper_bound; lia]. }
  exists x. split; [exact E|]. unfold tget, bit_of. rewrite E. auto.
Qed.
Definition in16 (t : tab) : bool := forallb (fun i => match tlookup t i with Some _ => true | None => false end) (upto 16).
Lemma in16_ok : forall t, in16 t = true -> forall i, 0 <= i < 16 -> exists x, tlookup t i = Some x.
Proof. intros t H i I. pose proof (sweep 16 _ H i I) as X. cbn beta in X. destruct (tlookup t i) as [x|]; [eauto|discriminate]. Qed.
Lemma direct_in : forall i, 0 <= i < 16 -> exists x, tlookup direct_tab i = Some x.
Proof. apply in16_ok. vm_compute. reflexivity. Qed.
Lemma xbase64_in : forall i, 0 <= i < 16 -> exists x, tlookup xbase64_tab i = Some x.
Proof. apply in16_ok. vm_compute. reflexivity. Qed.
Lemma xdirect_in : forall i, 0 <= i < 16 -> exists x, tlookup xdirect_tab i = Some x.
Proof. apply in16_ok. vm_compute. reflexivity. Qed.

(** ** The base64 loop of the encoder *)
Lemma j9_eq : forall fuel c count k state wc ro r, 0 <= c < 64 ->
  utf7_wctomb_j9 (S fuel) c count k state wc ro r = utf7_wctomb_j10 fuel (b64 c) count k state wc ro r.
Proof.
  intros fuel c count k state wc ro r H. cbn [utf7_wctomb_j9]. unfold b64.
  change 0x1a with 26. change 0x34 with 52. change 0x3e with 62. change 0x3f with 63.
  destruct (Z.ltb_spec c 26); [reflexivity|]. destruct (Z.ltb_spec c 52); [reflexivity|]. destruct (Z.ltb_spec c 62); [reflexivity|].
  destruct (Z.eqb_spec c 62); [reflexivity|]. destruct (Z.eqb_spec c 63); [reflexivity|lia].
Qed.
Definition more (count k state : Z) (r : wlog) (next : res (Z * wlog * Z)) : res (Z * wlog * Z) :=
  if negb (state mod 4 =? 0) && (k =? 0) then Ok (count, r, state) else next.
Lemma land3 : forall x, Z.land x 3 = x mod 4.
Proof. intros x. change 3 with (Z.ones 2). rewrite Z.land_ones by lia. reflexivity. Qed.
Lemma land255 : forall x, Z.land x 255 = x mod 256.
Proof. intros x. change 255 with (Z.ones 8). rewrite Z.land_ones by lia. reflexivity. Qed.
Lemma j10_eq : forall fuel c count k state wc ro r,
  utf7_wctomb_j10 (S fuel) c count k state wc ro r = more count k state (wr r ro c) (utf7_wctomb_loop fuel count k state wc (ro + 1) (wr r ro c)).
Proof.
  intros. cbn [utf7_wctomb_j10]. unfold more. rewrite land3. destruct (state mod 4 =? 0); cbn [negb andb]; [reflexivity|]. destruct (k =? 0); reflexivity.
Qed.

(** One digit; i is the next payload byte. *)
Lemma loop_0 : forall fuel count k d wc ro r, 0 <= d < 64 ->
  utf7_wctomb_loop (S (S (S fuel))) count k (4 * d) wc ro r = more count k 1 (wr r ro (b64 d)) (utf7_wctomb_loop fuel count k 1 wc (ro + 1) (wr r ro (b64 d))).
Proof.
  intros fuel count k d wc ro r H. cbn [utf7_wctomb_loop].
  assert (E : (Z.land (4 * d) 3 =? 0) && (u8 (Z.shiftr (Z.land (4 * d) 0xfffffffc) 2) =? d) = true).
  { revert d H. apply (sweep 64 (fun d => (Z.land (4 * d) 3 =? 0) && (u8 (Z.shiftr (Z.land (4 * d) 0xfffffffc) 2) =? d))). vm_compute. reflexivity. }
  apply andb_prop in E. destruct E as (E1 & E2). cbv zeta. rewrite E1. apply Z.eqb_eq in E2. rewrite E2, j9_eq by exact H. apply j10_eq.
Qed.
Lemma loop_1 : forall fuel count k wc ro r i, 1 <= k <= 4 -> i = Z.land (Z.shiftr wc (8 * (k - 1))) 255 ->
  utf7_wctomb_loop (S (S (S fuel))) count k 1 wc ro r =
   more count (k - 1) (16 * (i mod 4) + 2) (wr r ro (b64 (i / 4))) (utf7_wctomb_loop fuel count (k - 1) (16 * (i mod 4) + 2) wc (ro + 1) (wr r ro (b64 (i / 4)))).
Proof.
  intros fuel count k wc ro r i K I. assert (B : 0 <= i < 256) by (subst i; rewrite land255; apply Z.mod_pos_bound; lia).
  cbn [utf7_wctomb_loop]. cbv zeta. change (Z.land 1 3) with 1. cbn [Z.eqb].
  assert (U : u32 (k - 1) = k - 1) by (unfold u32; rewrite Z.mod_small; lia). rewrite U.
  assert (U8 : u32 (8 * (k - 1)) = 8 * (k - 1)) by (unfold u32; rewrite Z.mod_small; lia). rewrite U8.
  unfold shck. destruct (Z.leb_spec 0 (8 * (k - 1))); [|lia]. destruct (Z.ltb_spec (8 * (k - 1)) 32); [|lia]. cbn [andb].
  change 0xff with 255. rewrite <- I.
  assert (E : (Z.shiftr i 2 =? i / 4) && (Z.lor (Z.shiftl (Z.land i 3) 4) 2 =? 16 * (i mod 4) + 2) && (i / 4 <? 64) && (0 <=? i / 4) = true).
  { revert i B I. intros i B _. revert i B. apply (sweep 256 (fun i => (Z.shiftr i 2 =? i / 4) && (Z.lor (Z.shiftl (Z.land i 3) 4) 2 =? 16 * (i mod 4) + 2) && (i / 4 <? 64) && (0 <=? i / 4))). vm_compute. reflexivity. }
  apply andb_prop in E. destruct E as (E & E4). apply andb_prop in E. destruct E as (E & E3). apply andb_prop in E. destruct E as (E1 & E2).
  apply Z.eqb_eq in E1. apply Z.eqb_eq in E2. rewrite E1, E2, j9_eq by lia. apply j10_eq.
Qed.
Lemma loop_2 : forall fuel count k d wc ro r i, 1 <= k <= 4 -> i = Z.land (Z.shiftr wc (8 * (k - 1))) 255 -> 0 <= d < 4 ->
  utf7_wctomb_loop (S (S (S fuel))) count k (16 * d + 2) wc ro r =
   more count (k - 1) (4 * (i mod 16) + 3) (wr r ro (b64 (16 * d + i / 16))) (utf7_wctomb_loop fuel count (k - 1) (4 * (i mod 16) + 3) wc (ro + 1) (wr r ro (b64 (16 * d + i / 16)))).
Proof.
  intros fuel count k d wc ro r i K I D. assert (B : 0 <= i < 256) by (subst i; rewrite land255; apply Z.mod_pos_bound; lia).
  cbn [utf7_wctomb_loop]. cbv zeta.
  assert (U : u32 (k - 1) = k - 1) by (unfold u32; rewrite Z.mod_small; lia). rewrite U.
  assert (U8 : u32 (8 * (k - 1)) = 8 * (k - 1)) by (unfold u32; rewrite Z.mod_small; lia). rewrite U8.
  unfold shck. destruct (Z.leb_spec 0 (8 * (k - 1))); [|lia]. destruct (Z.ltb_spec (8 * (k - 1)) 32); [|lia]. cbn [andb].
  change 0xff with 255. rewrite <- I.
  assert (E : (u8 (Z.lor (Z.land (16 * d + 2) 0xfffffffc) (Z.shiftr i 4)) =? 16 * d + i / 16) && (Z.lor (Z.shiftl (Z.land i 0xf) 2) 3 =? 4 * (i mod 16) + 3) && (16 * d + i / 16 <? 64) && (0 <=? 16 * d + i / 16) && (Z.land (16 * d + 2) 3 =? 2) = true).
  { revert i B I. intros i B _. revert i B. 
    assert (Q : forallb (fun d => forallb (fun i => (u8 (Z.lor (Z.land (16 * d + 2) 0xfffffffc) (Z.shiftr i 4)) =? 16 * d + i / 16) && (Z.lor (Z.shiftl (Z.land i 0xf) 2) 3 =? 4 * (i mod 16) + 3) && (16 * d + i / 16 <? 64) && (0 <=? 16 * d + i / 16) && (Z.land (16 * d + 2) 3 =? 2)) (upto 256)) (upto 4) = true) by (vm_compute; reflexivity).
    apply (sweep 256). exact (sweep 4 _ Q d D). }
  apply andb_prop in E. destruct E as (E & E5). apply andb_prop in E. destruct E as (E & E4). apply andb_prop in E. destruct E as (E & E3). apply andb_prop in E. destruct E as (E1 & E2).
  apply Z.eqb_eq in E1. apply Z.eqb_eq in E2. apply Z.eqb_eq in E5. rewrite E5. cbn [Z.eqb Pos.eqb]. rewrite E1, E2, j9_eq by lia. apply j10_eq.
Qed.
Lemma loop_3 : forall fuel count k d wc ro r i, 1 <= k <= 4 -> i = Z.land (Z.shiftr wc (8 * (k - 1))) 255 -> 0 <= d < 16 ->
  utf7_wctomb_loop (S (S (S fuel))) count k (4 * d + 3) wc ro r =
   more count (k - 1) (4 * (i mod 64)) (wr r ro (b64 (4 * d + i / 64))) (utf7_wctomb_loop fuel count (k - 1) (4 * (i mod 64)) wc (ro + 1) (wr r ro (b64 (4 * d + i / 64)))).
Proof.
  intros fuel count k d wc ro r i K I D. assert (B : 0 <= i < 256) by (subst i; rewrite land255; apply Z.mod_pos_bound; lia).
  cbn [utf7_wctomb_loop]. cbv zeta.
  assert (U : u32 (k - 1) = k - 1) by (unfold u32; rewrite Z.mod_small; lia). rewrite U.
  assert (U8 : u32 (8 * (k - 1)) = 8 * (k - 1)) by (unfold u32; rewrite Z.mod_small; lia). rewrite U8.
  unfold shck. destruct (Z.leb_spec 0 (8 * (k - 1))); [|lia]. destruct (Z.ltb_spec (8 * (k - 1)) 32); [|lia]. cbn [andb].
  change 0xff with 255. rewrite <- I.
  assert (E : (u8 (Z.lor (Z.land (4 * d + 3) 0xfffffffc) (Z.shiftr i 6)) =? 4 * d + i / 64) && (Z.lor (Z.shiftl (Z.land i 0x3f) 2) 0 =? 4 * (i mod 64)) && (4 * d + i / 64 <? 64) && (0 <=? 4 * d + i / 64) && (Z.land (4 * d + 3) 3 =? 3) = true).
  { revert i B I. intros i B _. revert i B. 
    assert (Q : forallb (fun d => forallb (fun i => (u8 (Z.lor (Z.land (4 * d + 3) 0xfffffffc) (Z.shiftr i 6)) =? 4 * d + i / 64) && (Z.lor (Z.shiftl (Z.land i 0x3f) 2) 0 =? 4 * (i mod 64)) && (4 * d + i / 64 <? 64) && (0 <=? 4 * d + i / 64) && (Z.land (4 * d + 3) 3 =? 3)) (upto 256)) (upto 16) = true) by (vm_compute; reflexivity).
    apply (sweep 256). exact (sweep 16 _ Q d D). }
  apply andb_prop in E. destruct E as (E & E5). apply andb_prop in E. destruct E as (E & E4). apply andb_prop in E. destruct E as (E & E3). apply andb_prop in E. destruct E as (E1 & E2).
  apply Z.eqb_eq in E1. apply Z.eqb_eq in E2. apply Z.eqb_eq in E5. rewrite E5. cbn [Z.eqb Pos.eqb]. rewrite E1, E2, j9_eq by lia. apply j10_eq.
Qed.

(** ** Base64 digits of pending bits followed by a payload *)
(** The q complete six-bit groups of v, most significant first, when r more bits follow them. *)
Fixpoint sextets (q : nat) (r v : Z) : list Z :=
  match q with O => [] | S q => v / 2 ^ (r + 6 * Z.of_nat q) mod 64 :: sextets q r v end.
(** The encoder's state word for r pending bits of value d. *)
Definition pend_state (r d : Z) : Z := if r =? 0 then 1 else if r =? 2 then 16 * d + 2 else 4 * d + 3.
(** p pending bits of value d followed by the k bits of w: the digits written, and what is left pending. *)
Definition groups (p d k w : Z) : list Z := let t := p + k in sextets (Z.to_nat (t / 6)) (t mod 6) (d * 2 ^ k + w).
Definition left_over (p d k w : Z) : Z := (d * 2 ^ k + w) mod 2 ^ ((p + k) mod 6).

Ltac eucl := Z.to_euclidean_division_equations; lia.
(** k bytes left: not finished. *)
Lemma more_k : forall count k state r next, k <> 0 -> more count k state r next = next.
Proof. intros. unfold more. destruct (Z.eqb_spec k 0); [lia|]. rewrite andb_false_r. reflexivity. Qed.
Lemma more_0 : forall count state r next, state mod 4 = 0 -> more count 0 state r next = next.
Proof. intros. unfold more. rewrite H. reflexivity. Qed.
Lemma more_stop : forall count state r next, state mod 4 <> 0 -> more count 0 state r next = Ok (count, r, state).
Proof. intros. unfold more. destruct (Z.eqb_spec (state mod 4) 0); [lia|]. reflexivity. Qed.

Lemma split2 : forall w, 0 <= w < 65536 -> exists i1 i2, w = i1 * 256 + i2 /\ 0 <= i1 < 256 /\ 0 <= i2 < 256 /\
  i1 = Z.land (Z.shiftr w (8 * (2 - 1))) 255 /\ i2 = Z.land (Z.shiftr w (8 * (1 - 1))) 255.
Proof.
  intros w W. exists (w / 256), (w mod 256). rewrite !land255, !Z.shiftr_div_pow2 by lia. change (2 ^ (8 * (2 - 1))) with 256. change (2 ^ (8 * (1 - 1))) with 1.
  repeat split; eucl.
Qed.
Lemma split4 : forall w, 0 <= w < 4294967296 -> exists i1 i2 i3 i4, w = ((i1 * 256 + i2) * 256 + i3) * 256 + i4 /\
  0 <= i1 < 256 /\ 0 <= i2 < 256 /\ 0 <= i3 < 256 /\ 0 <= i4 < 256 /\
  i1 = Z.land (Z.shiftr w (8 * (4 - 1))) 255 /\ i2 = Z.land (Z.shiftr w (8 * (3 - 1))) 255 /\
  i3 = Z.land (Z.shiftr w (8 * (2 - 1))) 255 /\ i4 = Z.land (Z.shiftr w (8 * (1 - 1))) 255.
Proof.
  intros w W. exists (w / 16777216), (w / 65536 mod 256), (w / 256 mod 256), (w mod 256). rewrite !land255, !Z.shiftr_div_pow2 by lia.
  change (2 ^ (8 * (4 - 1))) with 16777216. change (2 ^ (8 * (3 - 1))) with 65536. change (2 ^ (8 * (2 - 1))) with 256. change (2 ^ (8 * (1 - 1))) with 1.
  repeat split; eucl.
Qed.
Ltac pows := repeat match goal with |- context [2 ^ ?e] => let v := eval vm_compute in (2 ^ e) in change (2 ^ e) with v end.
Ltac wstep := match goal with
  | |- utf7_wctomb_loop _ _ _ 1 _ _ _ = _ => erewrite loop_1; [|lia|eassumption]
  | |- utf7_wctomb_loop _ _ _ (16 * _ + 2) _ _ _ = _ => erewrite loop_2; [|lia|eassumption|eucl]
  | |- utf7_wctomb_loop _ _ _ (4 * _ + 3) _ _ _ = _ => erewrite loop_3; [|lia|eassumption|eucl]
  | |- utf7_wctomb_loop _ _ _ (4 * _) _ _ _ = _ => rewrite loop_0 by eucl
  end;
  repeat match goal with |- context [?a - 1] => let v := eval vm_compute in (a - 1) in change (a - 1) with v end;
  first [rewrite more_k by discriminate | rewrite more_0 by eucl | rewrite more_stop by eucl].
Ltac wdone := match goal with |- Ok (_, ?l, _) = Ok (_, logof _ (map b64 (groups ?p ?d ?k ?w)) _, _) =>
   f_equal; unfold groups, left_over; 
   let q := eval vm_compute in (Z.to_nat ((p + k) / 6)) in change (Z.to_nat ((p + k) / 6)) with q;
   let r := eval vm_compute in ((p + k) mod 6) in change ((p + k) mod 6) with r end;
  cbn [sextets map logof]; unfold wr; rewrite ?Nat.add_1_r; pows; unfold pend_state; cbn [Z.eqb Pos.eqb];
  apply f_equal2; [apply f_equal2; [reflexivity|]|];
  [repeat (apply f_equal2; [apply f_equal2; [reflexivity|apply f_equal; eucl]|]); reflexivity|try eucl].

Definition pend_ok (p d : Z) : Prop := (p = 0 /\ d = 0) \/ (p = 2 /\ 0 <= d < 4) \/ (p = 4 /\ 0 <= d < 16).
Lemma b64_groups_2 : forall p d w, 0 <= w < 65536 -> pend_ok p d ->
  forall count ro r, utf7_wctomb_loop 64 count 2 (pend_state p d) w ro r =
   Ok (count, logof ro (map b64 (groups p d 16 w)) r, pend_state ((p + 16) mod 6) (left_over p d 16 w)).
Proof.
  intros p d w W P count ro r.
  destruct (split2 w W) as (i1 & i2 & E & B1 & B2 & S1 & S2).
  destruct P as [(-> & ->)|[(-> & D)|(-> & D)]]; unfold pend_state at 1; cbn [Z.eqb Pos.eqb].
  - do 2 wstep. wdone.
  - do 3 wstep. wdone.
  - do 3 wstep. wdone.
Qed.
Lemma b64_groups_4 : forall p d w, 0 <= w < 4294967296 -> pend_ok p d ->
  forall count ro r, utf7_wctomb_loop 64 count 4 (pend_state p d) w ro r =
   Ok (count, logof ro (map b64 (groups p d 32 w)) r, pend_state ((p + 32) mod 6) (left_over p d 32 w)).
Proof.
  intros p d w W P count ro r.
  destruct (split4 w W) as (i1 & i2 & i3 & i4 & E & B1 & B2 & B3 & B4 & S1 & S2 & S3 & S4).
  destruct P as [(-> & ->)|[(-> & D)|(-> & D)]]; unfold pend_state at 1; cbn [Z.eqb Pos.eqb].
  - do 5 wstep. wdone.
  - do 5 wstep. wdone.
  - do 6 wstep. wdone.
Qed.

(** ** What the encoder does with one character *)
(** The character as sixteen-bit units: how many bits, and their value. *)
Definition units (wc : Z) : option (Z * Z) :=
  if wc <? 65536 then Some (16, wc)
  else if wc <? 1114112 then Some (32, (55296 + (wc - 65536) / 1024) * 65536 + (56320 + (wc - 65536) mod 1024)) else None.
Definition b64_of (p d wc : Z) : option (list Z * (Z * Z)) :=
  match units wc with Some (k, w) => Some (map b64 (groups p d k w), ((p + k) mod 6, left_over p d k w)) | None => None end.
(** The digit that pads the pending bits with zeroes. *)
Definition fill (p d : Z) : list Z := if p =? 0 then [] else [b64 (d * 2 ^ (6 - p))].
(** None: plain text; Some (p, d): inside base64 with p pending bits. *)
Definition mode : Type := option (Z * Z).
Definition mode_ok (m : mode) : Prop := match m with None => True | Some (p, d) => pend_ok p d end.
Definition word (m : mode) : Z := match m with None => 0 | Some (p, d) => pend_state p d end.
Definition enc7 (m : mode) (wc : Z) : option (list Z * mode) :=
  match m with
  | None => if direct wc then Some ([wc], None) else if wc =? 43 then Some ([43; 45], None)
            else match b64_of 0 0 wc with Some (bs, q) => Some (43 :: bs, Some q) | None => None end
  | Some (p, d) => if direct wc then Some (fill p d ++ (if xbase64 wc then [45] else []) ++ [wc], None)
                   else match b64_of p d wc with Some (bs, q) => Some (bs, Some q) | None => None end
  end.

Lemma logof_app : forall a b o acc, logof o (a ++ b) acc = logof (o + length a) b (logof o a acc).
Proof. induction a as [|x a IH]; intros b o acc; cbn; [now rewrite Nat.add_0_r|]. rewrite IH. f_equal. lia. Qed.
Lemma logof_lfind : forall bs o acc j, (forall b, nth_error bs j = Some b -> lfind (logof o bs acc) (o + j) = Some b) /\
  (forall i, (i < o)%nat -> lfind (logof o bs acc) i = lfind acc i).
Proof.
  assert (L : forall bs o acc i, (i < o)%nat -> lfind (logof o bs acc) i = lfind acc i).
  { induction bs as [|b bs IH]; intros o acc i H; cbn; [reflexivity|]. rewrite IH by lia. cbn. destruct (Nat.eqb_spec i o); [lia|reflexivity]. }
  intros bs o acc j. split; [|intros; now apply L]. revert o acc j. induction bs as [|b bs IH]; intros o acc j x H; [destruct j; discriminate|].
  destruct j as [|j]; cbn in H.
  - injection H as ->. cbn. rewrite Nat.add_0_r, L by lia. cbn. now rewrite Nat.eqb_refl.
  - cbn. replace (o + S j)%nat with (S o + j)%nat by lia. now apply IH.
Qed.
Lemma logof_inb : forall bs o acc n, bytes bs -> inb acc n -> (o + length bs <= n)%nat -> inb (logof o bs acc) n.
Proof.
  induction bs as [|b bs IH]; intros o acc n B I H; cbn in *; [exact I|]. inversion B; subst. apply IH; [assumption| |lia].
  constructor; [split; [cbn; lia|assumption]|exact I].
Qed.
Lemma logof_writes : forall bs, bytes bs -> writes (logof 0 bs []) bs.
Proof. intros bs B. split; [apply logof_inb; [exact B|constructor|lia]|]. intros j b H. now apply (proj1 (logof_lfind bs 0 [] j)). Qed.

Lemma sextets_range : forall q r v, Forall (fun i => 0 <= i < 64) (sextets q r v).
Proof. induction q as [|q IH]; intros r v; cbn; constructor; [apply Z.mod_pos_bound; lia|apply IH]. Qed.
Lemma b64_bytes : forall l, Forall (fun i => 0 <= i < 64) l -> bytes (map b64 l).
Proof. intros l H. unfold bytes. rewrite Forall_map. revert H. apply Forall_impl. intros a H. now apply b64_byte. Qed.
Lemma sextets_length : forall q r v, length (sextets q r v) = q.
Proof. induction q as [|q IH]; intros; cbn; [reflexivity|]. now rewrite IH. Qed.
Lemma pend_next : forall p d k w, pend_ok p d -> k = 16 \/ k = 32 -> pend_ok ((p + k) mod 6) (left_over p d k w).
Proof.
  intros p d k w P K. unfold left_over, pend_ok. set (v := d * 2 ^ k + w). 
  assert (M : forall r, 0 <= r -> 0 <= v mod 2 ^ r < 2 ^ r) by (intros r R; apply Z.mod_pos_bound; lia).
  destruct P as [(-> & _)|[(-> & _)|(-> & _)]], K as [-> | ->]; match goal with |- context [v mod 2 ^ ?r] => let x := eval vm_compute in r in change r with x; specialize (M x); revert M; pows; intro M end; try (left; split; [reflexivity|rewrite Z.mod_1_r; reflexivity]); lia.
Qed.
Lemma units_cases : forall wc k w, 0 <= wc -> units wc = Some (k, w) -> (k = 16 /\ w = wc /\ 0 <= w < 65536 /\ wc < 65536) \/ (k = 32 /\ 0 <= w < 4294967296 /\ 65536 <= wc < 1114112 /\ w = (55296 + (wc - 65536) / 1024) * 65536 + (56320 + (wc - 65536) mod 1024)).
Proof.
  intros wc k w H E. unfold units in E. destruct (Z.ltb_spec wc 65536).
  - injection E as <- <-. lia.
  - destruct (Z.ltb_spec wc 1114112); [|discriminate]. right.
    assert (A : 0 <= (wc - 65536) / 1024 < 1024) by eucl. assert (B : 0 <= (wc - 65536) mod 1024 < 1024) by (apply Z.mod_pos_bound; lia).
    set (a := (wc - 65536) / 1024) in *. set (b := (wc - 65536) mod 1024) in *. clearbody a b.
    assert (X : k = 32) by congruence. assert (Y : w = (55296 + a) * 65536 + (56320 + b)) by congruence. clear E. subst k.
    repeat split; try assumption; try lia.
Qed.
Lemma fill_bytes : forall p d, pend_ok p d -> bytes (fill p d) /\ (length (fill p d) <= 1)%nat.
Proof.
  intros p d P. unfold fill. destruct P as [(-> & ->)|[(-> & D)|(-> & D)]]; cbn [Z.eqb Pos.eqb]; (split; [|cbn; lia]); repeat constructor; apply b64_byte; pows; lia.
Qed.
Lemma direct_byte : forall wc, 0 <= wc -> direct wc = true -> 0 <= wc < 128.
Proof. intros wc H D. unfold direct in D. destruct (Z.ltb_spec wc 128); [lia|discriminate]. Qed.
Lemma enc7_ok : forall m wc bs m', mode_ok m -> ucs4 wc -> enc7 m wc = Some (bs, m') -> bytes bs /\ (1 <= length bs <= 7)%nat /\ mode_ok m'.
Proof.
  intros m wc bs m' M U E. unfold ucs4 in U.
  assert (G : forall p d bs q, pend_ok p d -> b64_of p d wc = Some (bs, q) -> bytes bs /\ (1 <= length bs <= 6)%nat /\ mode_ok (Some q)).
  { intros p d bs0 q P X. unfold b64_of in X. destruct (units wc) as [[k w]|] eqn:W; [|discriminate]. injection X as <- <-.
    assert (K : k = 16 \/ k = 32) by (apply units_cases in W; lia).
    split; [apply b64_bytes, sextets_range|]. split; [|cbn; now apply pend_next].
    rewrite map_length. unfold groups. rewrite sextets_length. unfold pend_ok in P. destruct K as [-> | ->]; Z.to_euclidean_division_equations; lia. }
  destruct m as [[p d]|]; cbn in M, E.
  - destruct (direct wc) eqn:D.
    + apply direct_byte in D; [|lia]. injection E as <- <-. destruct (fill_bytes p d M) as (F & L). split; [|split; [|exact I]].
      * apply Forall_app. split; [exact F|]. apply Forall_app. split; [destruct (xbase64 wc); repeat constructor; unfold byte; lia|]. repeat constructor; unfold byte; lia.
      * rewrite !app_length. destruct (xbase64 wc); cbn; lia.
    + destruct (b64_of p d wc) as [[b q]|] eqn:X; [|discriminate]. injection E as <- <-. destruct (G _ _ _ _ M X) as (A & B & C). repeat split; auto; lia.
  - destruct (direct wc) eqn:D.
    + apply direct_byte in D; [|lia]. injection E as <- <-. repeat split; cbn; try lia; repeat constructor; unfold byte; lia.
    + destruct (wc =? 43); [injection E as <- <-; repeat split; cbn; try lia; repeat constructor; unfold byte; lia|].
      destruct (b64_of 0 0 wc) as [[b q]|] eqn:X; [|discriminate]. injection E as <- <-. destruct (G 0 0 b q ltac:(left; auto) X) as (A & B & C). repeat split; auto; cbn; try lia.
      constructor; [unfold byte; lia|exact A].
Qed.

(** ** The encoder does exactly that *)
Lemma word_facts : forall p d, pend_ok p d ->
  (Z.land (pend_state p d) 3 =? 0) = false /\ (Z.land (pend_state p d) 3 >=? 2) = negb (p =? 0) /\
  (Z.land (pend_state p d) 3 >=? 3) = (p =? 4) /\ (p <> 0 -> Z.land (pend_state p d) 0xfffffffc = d * 2 ^ (6 - p) /\ 0 <= d * 2 ^ (6 - p) < 64).
Proof.
  intros p d P. unfold pend_state. destruct P as [(-> & ->)|[(-> & D)|(-> & D)]]; cbn [Z.eqb Pos.eqb negb].
  - repeat split; try reflexivity; intros; lia.
  - assert (X : (Z.land (16 * d + 2) 3 =? 2) && (Z.land (16 * d + 2) 0xfffffffc =? 16 * d) = true).
    { apply (sweep 4 (fun d => (Z.land (16 * d + 2) 3 =? 2) && (Z.land (16 * d + 2) 0xfffffffc =? 16 * d))); [vm_compute; reflexivity|lia]. }
    apply andb_prop in X. destruct X as (X & Y). apply Z.eqb_eq in X, Y. rewrite X, Y. pows. repeat split; lia.
  - assert (X : (Z.land (4 * d + 3) 3 =? 3) && (Z.land (4 * d + 3) 0xfffffffc =? 4 * d) = true).
    { apply (sweep 16 (fun d => (Z.land (4 * d + 3) 3 =? 3) && (Z.land (4 * d + 3) 0xfffffffc =? 4 * d))); [vm_compute; reflexivity|lia]. }
    apply andb_prop in X. destruct X as (X & Y). apply Z.eqb_eq in X, Y. rewrite X, Y. pows. repeat split; lia.
Qed.

(** The digit chosen when leaving base64 (utf7.h:264-276, 344-356). *)
Definition digit_sel {A : Type} (i : Z) (f : Z -> res A) : res A :=
  if i <? 0x1a then f (i + 0x41) else if i <? 0x34 then f (i - 0x1a + 0x61) else if i <? 0x3e then f (i - 0x34 + 0x30)
  else if i =? 0x3e then f 0x2b else if i =? 0x3f then f 0x2f else Abort.
Lemma digit_sel_eq : forall A i (f : Z -> res A), 0 <= i < 64 -> digit_sel i f = f (b64 i).
Proof.
  intros A i f H. unfold digit_sel, b64.
  change 0x1a with 26. change 0x34 with 52. change 0x3e with 62. change 0x3f with 63.
  destruct (Z.ltb_spec i 26); [reflexivity|]. destruct (Z.ltb_spec i 52); [reflexivity|]. destruct (Z.ltb_spec i 62); [reflexivity|].
  destruct (Z.eqb_spec i 62); [reflexivity|]. destruct (Z.eqb_spec i 63); [reflexivity|lia].
Qed.

(** The outcome for room n when the total output is pre ++ bs, pre having been written already. *)
Definition emits (n : nat) (ost : Z) (pre : wlog) (o : nat) (total : nat) (bs : list Z) (st' : Z) : res (Z * wlog * Z) :=
  if Nat.ltb n total then Ok (-2, pre, ost) else Ok (Z.of_nat total, logof o bs pre, st').

Lemma lor_shl : forall a b n, 0 <= n -> 0 <= b < 2 ^ n -> Z.lor (Z.shiftl a n) b = a * 2 ^ n + b.
Proof.
  intros a b n Hn Hb. rewrite <- Z.shiftl_mul_pow2 by exact Hn.
  assert (L : Z.land (Z.shiftl a n) b = 0).
  { apply Z.bits_inj'. intros k Hk. rewrite Z.land_spec, Z.bits_0.
    destruct (Z.ltb_spec k n).
    - rewrite Z.shiftl_spec_low by lia. reflexivity.
    - rewrite <- (Z.mod_small b (2 ^ n)) by exact Hb. rewrite Z.mod_pow2_bits_high by lia. apply andb_false_r. }
  rewrite Z.add_nocarry_lxor by exact L. symmetry. now apply Z.lxor_lor.
Qed.
Lemma groups_length : forall p d k w, length (groups p d k w) = Z.to_nat ((p + k) / 6).
Proof. intros. apply sextets_length. Qed.
Lemma ltb_to_nat : forall n k, (n <? Z.to_nat (Z.of_nat k))%nat = (n <? k)%nat.
Proof. intros. now rewrite Nat2Z.id. Qed.
Lemma j2_eq : forall p d wc n ro r ost, pend_ok p d -> 0 <= wc -> 
  utf7_wctomb_j2 (Z.of_nat ro) (pend_state p d) wc n ro r ost =
  match b64_of p d wc with Some (bs, q) => emits n ost r ro (ro + length bs) bs (word (Some q)) | None => Ok (-1, r, ost) end.
Proof.
  intros p d wc n ro r ost P W. unfold utf7_wctomb_j2, b64_of, utf7_wctomb_j8. destruct (word_facts p d P) as (_ & F2 & F3 & _). rewrite F2, F3.
  change 0x10000 with 65536. change 0x110000 with 1114112.
  destruct (units wc) as [[k w]|] eqn:U.
  - pose proof (units_cases _ _ _ W U) as C. unfold units in U.
    destruct (Z.ltb_spec wc 65536).
    + assert (k = 16) by lia. assert (w = wc) by lia. subst. unfold emits. rewrite b64_groups_2 by (lia || assumption). rewrite map_length, !groups_length.
      assert (E : Z.of_nat ro + (if negb (p =? 0) then 3 else 2) = Z.of_nat (ro + Z.to_nat ((p + 16) / 6))).
      { unfold pend_ok in P. destruct P as [(-> & _)|[(-> & _)|(-> & _)]]; cbn; lia. }
      rewrite E, ltb_to_nat. reflexivity.
    + destruct (Z.ltb_spec wc 1114112); [|discriminate]. clear U. assert (k = 32) by lia. subst k. destruct C as [C|C]; [lia|]. destruct C as (_ & Cw & _ & C).
      assert (X : Z.lor (Z.shiftl (0xd800 + Z.shiftr (wc - 65536) 0xa) 0x10) (0xdc00 + Z.land (wc - 65536) 0x3ff) = w).
      { rewrite C. change 0x3ff with (Z.ones 10). rewrite Z.land_ones by lia. rewrite Z.shiftr_div_pow2 by lia. change (2 ^ 10) with 1024. change (2 ^ 0xa) with 1024.
        assert (B : 0 <= (wc - 65536) mod 1024 < 1024) by (apply Z.mod_pos_bound; lia).
        rewrite lor_shl; [reflexivity|lia|]. change (2 ^ 0x10) with 65536. lia. }
      cbv zeta. rewrite X. clear C X. unfold emits. rewrite b64_groups_4 by assumption. rewrite map_length, !groups_length.
      assert (E : Z.of_nat ro + (if p =? 4 then 6 else 5) = Z.of_nat (ro + Z.to_nat ((p + 32) / 6))).
      { unfold pend_ok in P. destruct P as [(-> & _)|[(-> & _)|(-> & _)]]; cbn; lia. }
      rewrite E, ltb_to_nat. reflexivity.
  - unfold units in U. destruct (Z.ltb_spec wc 65536); [discriminate|]. destruct (Z.ltb_spec wc 1114112); [discriminate|]. reflexivity.
Qed.

Lemma j6_eq : forall count wc ro r, 0 <= wc < 128 ->
  utf7_wctomb_j6 count wc ro r = Ok (count, logof ro ((if xbase64 wc then [45] else []) ++ [wc]) r, 0).
Proof.
  intros count wc ro r W. unfold utf7_wctomb_j6. change 0x80 with 128. destruct (Z.ltb_spec wc 128); [|lia].
  match goal with |- tget ?t ?i ?k = _ => destruct (tget_bit _ t wc k W xbase64_in) as (x & _ & -> & B) end.
  unfold xbase64. destruct (Z.ltb_spec wc 128); [|lia]. rewrite B. destruct (negb _); cbn; unfold utf7_wctomb_j7, wr; rewrite ?Nat.add_1_r; reflexivity.
Qed.
Lemma active_eq : forall p d wc n ro r ost, pend_ok p d -> 0 <= wc -> 
  utf7_wctomb_active (Z.of_nat ro) (pend_state p d) wc n ro r ost =
  match enc7 (Some (p, d)) wc with Some (bs, m) => emits n ost r ro (ro + length bs) bs (word m) | None => Ok (-1, r, ost) end.
Proof.
  intros p d wc n ro r ost P W. unfold utf7_wctomb_active, enc7, direct. change 0x80 with 128.
  assert (J : match match b64_of p d wc with Some (bs, q) => Some (bs, Some q) | None => None end with
     | Some (bs, m) => emits n ost r ro (ro + length bs) bs (word m) | None => Ok (-1, r, ost) end = utf7_wctomb_j2 (Z.of_nat ro) (pend_state p d) wc n ro r ost).
  { rewrite j2_eq by assumption. destruct (b64_of p d wc) as [[bs q]|]; reflexivity. }
  destruct (Z.ltb_spec wc 128) as [L|L]; [|symmetry; exact J].
  match goal with |- tget ?t ?i ?k = _ => destruct (tget_bit _ t wc k (conj W L) direct_in) as (x & _ & -> & B) end. rewrite B.
  destruct (negb _); [|symmetry; exact J]. clear B J x.
  match goal with |- tget ?t ?i ?k = _ => destruct (tget_bit _ t wc k (conj W L) xbase64_in) as (x & _ & -> & B) end.
  assert (X : xbase64 wc = negb (Z.land (Z.shiftr x (Z.land wc 7)) 1 =? 0)) by (unfold xbase64; destruct (Z.ltb_spec wc 128); [exact B|lia]).
  rewrite <- X. unfold utf7_wctomb_j3. 
  set (b := if xbase64 wc then 1 else 0).
  transitivity (utf7_wctomb_j4 (Z.of_nat ro) (pend_state p d) wc b n ro r ost); [unfold b; destruct (xbase64 wc); reflexivity|].
  unfold utf7_wctomb_j4. destruct (word_facts p d P) as (_ & F2 & _ & F4). rewrite F2. unfold emits.
  assert (E : Z.of_nat ro + ((if negb (p =? 0) then 1 else 0) + b + 1) = Z.of_nat (ro + length (fill p d ++ (if xbase64 wc then [45] else []) ++ [wc]))).
  { rewrite !app_length. unfold b, fill. destruct (xbase64 wc), (p =? 0); cbn; lia. }
  rewrite E, ltb_to_nat. destruct (Nat.ltb _ _); [reflexivity|].
  unfold fill. destruct (Z.eqb_spec p 0) as [Z0|Z0]; cbn [negb].
  - cbn [app]. now rewrite j6_eq by lia.
  - destruct (F4 Z0) as (F5 & F6). rewrite F5. cbv zeta.
    match goal with |- ?x = _ => change x with (digit_sel (d * 2 ^ (6 - p)) (fun c => utf7_wctomb_j5 c (Z.of_nat (ro + length (([b64 (d * 2 ^ (6 - p))] ++ (if xbase64 wc then [45] else []) ++ [wc])%list))) wc ro r)) end.
    rewrite digit_sel_eq by exact F6. unfold utf7_wctomb_j5. rewrite j6_eq by lia. unfold wr. rewrite Nat.add_1_r. reflexivity.
Qed.
Lemma plain_eq : forall wc n, 0 <= wc -> exists pre, (pre = [] \/ pre = [(0%nat, 43)]) /\
  utf7_wctomb wc n 0 =
  match enc7 None wc with
  | Some (bs, m) => if Nat.ltb n (length bs) && negb (direct wc) then Ok (-2, pre, 0) else Ok (Z.of_nat (length bs), logof 0 bs [], word m)
  | None => Ok (-1, pre, 0) end.
Proof.
  intros wc n W. unfold utf7_wctomb. change (Z.land 0 3 =? 0) with true. cbn [negb]. change 0x80 with 128.
  assert (J : exists pre, (pre = [] \/ pre = [(0%nat, 43)]) /\ utf7_wctomb_j wc n 0 [] 0 =
     match (if wc =? 43 then Some ([43; 45], None) else match b64_of 0 0 wc with Some (bs, q) => Some (43 :: bs, Some q) | None => None end : option (list Z * mode)) with
     | Some (bs, m) => if Nat.ltb n (length bs) then Ok (-2, pre, 0) else Ok (Z.of_nat (length bs), logof 0 bs [], word m)
     | None => Ok (-1, pre, 0) end \/ direct wc = true).
  { exists [(0%nat, 43)]. destruct (direct wc) eqn:D; [now right; auto|]. left. split; [auto|]. unfold utf7_wctomb_j. change 0x2b with 43.
    destruct (Z.eqb_spec wc 43) as [->|N].
    - cbn [length word]. destruct (Nat.ltb n 2); reflexivity.
    - change (utf7_wctomb_active 1 1 wc n (0 + 1) (wr [] 0 43) 0) with (utf7_wctomb_active (Z.of_nat 1) (pend_state 0 0) wc n 1 (wr [] 0 43) 0).
      rewrite active_eq by (left; auto) || assumption. cbn [enc7]. rewrite D. unfold emits. destruct (b64_of 0 0 wc) as [[bs q]|]; [|reflexivity]. cbn [length]. reflexivity. }
  unfold enc7. destruct (direct wc) eqn:D.
  - exists []. split; [auto|]. unfold direct in D. destruct (Z.ltb_spec wc 128) as [L|L]; [|discriminate].
    match goal with |- tget ?t ?i ?k = _ => destruct (tget_bit _ t wc k (conj W L) direct_in) as (x & _ & -> & B) end. rewrite <- B, D. rewrite andb_false_r. reflexivity.
  - destruct J as (pre & [(Hp & J)|J]); [|discriminate]. exists pre. split; [exact Hp|]. cbn [negb]. 
    transitivity (utf7_wctomb_j wc n 0 [] 0).
    + unfold direct in D. destruct (Z.ltb_spec wc 128) as [L|L]; [|reflexivity].
      match goal with |- tget ?t ?i ?k = _ => destruct (tget_bit _ t wc k (conj W L) direct_in) as (x & _ & -> & B) end. rewrite <- B, D. reflexivity.
    + rewrite J. destruct (wc =? 43); [now rewrite andb_true_r|]. destruct (b64_of 0 0 wc) as [[bs q]|]; [|reflexivity]. now rewrite andb_true_r.
Qed.
Definition state7 (st : Z) : Prop := exists m, mode_ok m /\ st = word m.
Lemma enc7_at : forall m wc, mode_ok m -> ucs4 wc -> exists need, (need <= MAXNEED)%nat /\
  enc_at enc_utf7 wc (word m) (match enc7 m wc with Some (bs, m') => Some (bs, word m') | None => None end) need.
Proof.
  intros m wc M U. pose proof U as U'. unfold ucs4 in U'.
  assert (P : forall n pre, (1 <= n)%nat -> pre = [] \/ pre = [(0%nat, 43)] -> inb pre n).
  { intros n pre N [->| ->]; repeat constructor; cbn; unfold byte; lia. }
  destruct m as [[p d]|].
  - cbn [word mode_ok] in *.
    assert (E : forall n, f_wc enc_utf7 wc n (pend_state p d) = match enc7 (Some (p, d)) wc with Some (bs, m) => emits n (pend_state p d) [] 0 (0 + length bs) bs (word m) | None => Ok (-1, [], pend_state p d) end).
    { intro n. cbv [f_wc enc_utf7]. unfold utf7_wctomb. destruct (word_facts p d M) as (F & _). rewrite F. cbn [negb]. apply (active_eq p d wc n 0 [] (pend_state p d)); [exact M|lia]. }
    destruct (enc7 (Some (p, d)) wc) as [[bs m']|] eqn:X.
    + destruct (enc7_ok _ _ _ _ (M : mode_ok (Some (p, d))) U X) as (A & B & C). exists (Nat.max 1 (length bs)). split; [unfold MAXNEED; lia|]. apply enc_at_ok.
      * intros n N. exists []. split; [|constructor]. rewrite E. unfold emits. destruct (Nat.ltb_spec n (0 + length bs)); [reflexivity|lia].
      * intros n N L. exists (logof 0 bs []). split; [|now apply logof_writes]. rewrite E. unfold emits. destruct (Nat.ltb_spec n (0 + length bs)); [lia|reflexivity].
    + exists 1%nat. split; [unfold MAXNEED; lia|]. apply enc_at_ill; [lia|intros; lia|]. intros n N. exists []. split; [apply E|constructor].
  - cbn [word]. destruct (enc7 None wc) as [[bs m']|] eqn:X.
    + destruct (enc7_ok _ _ _ _ (M : mode_ok None) U X) as (A & B & C). exists (Nat.max 1 (length bs)). split; [unfold MAXNEED; lia|].
      assert (D : direct wc = true -> length bs = 1%nat) by (intro D; unfold enc7 in X; rewrite D in X; injection X as <- <-; reflexivity).
      apply enc_at_ok; intros n N; [|intro L]; cbv [f_wc enc_utf7]; destruct (plain_eq wc n) as (pre & Hp & E); [lia| |lia|]; rewrite X in E.
      * exists pre. split; [|apply P; [lia|exact Hp]]. rewrite E. destruct (Nat.ltb_spec n (length bs)); [|lia]. destruct (direct wc); [specialize (D eq_refl); lia|reflexivity].
      * exists (logof 0 bs []). split; [|now apply logof_writes]. rewrite E. destruct (Nat.ltb_spec n (length bs)); [lia|reflexivity].
    + exists 1%nat. split; [unfold MAXNEED; lia|]. apply enc_at_ill; [lia|intros; lia|]. intros n N. cbv [f_wc enc_utf7]. destruct (plain_eq wc n) as (pre & Hp & E); [lia|]. rewrite X in E. exists pre. split; [exact E|apply P; auto].
Qed.
(** Leaving base64 at the end (utf7.h:331-362). *)
Definition close7 (m : mode) : list Z := match m with None => [] | Some (p, d) => fill p d ++ [45] end.
Lemma close7_ok : forall m, mode_ok m -> bytes (close7 m) /\ (length (close7 m) <= 2)%nat.
Proof.
  intros [[p d]|] M; cbn in *; [|split; [constructor|lia]]. destruct (fill_bytes p d M) as (A & B). split; [|rewrite app_length; cbn; lia].
  apply Forall_app. split; [exact A|]. repeat constructor; unfold byte; lia.
Qed.
Lemma reset7_at : forall m n, mode_ok m -> 
  utf7_reset n (word m) = if Nat.ltb n (length (close7 m)) then Ok (-2, [], word m) else Ok (Z.of_nat (length (close7 m)), logof 0 (close7 m) [], word m).
Proof.
  intros [[p d]|] n M; cbn [mode_ok word close7] in *.
  - unfold utf7_reset. destruct (word_facts p d M) as (F1 & F2 & _ & F4). rewrite F1, F2. cbn [negb].
    assert (E : (if negb (p =? 0) then 1 else 0) + 1 = Z.of_nat (length (fill p d ++ [45]))) by (rewrite app_length; unfold fill; destruct (p =? 0); cbn; lia).
    cbv zeta. rewrite E, ltb_to_nat. destruct (Nat.ltb _ _); [reflexivity|]. unfold fill. destruct (Z.eqb_spec p 0) as [Z0|Z0]; cbn [negb]; [reflexivity|].
    destruct (F4 Z0) as (F5 & F6). rewrite F5.
    match goal with |- ?x = _ => change x with (digit_sel (d * 2 ^ (6 - p)) (fun c => utf7_reset_j c (Z.of_nat (length (([b64 (d * 2 ^ (6 - p))] ++ [45])%list))) 0 [] (pend_state p d))) end.
    rewrite digit_sel_eq by exact F6. reflexivity.
  - unfold utf7_reset. cbn. reflexivity.
Qed.
Theorem utf7_enc_ok : enc_ok enc_utf7 state7 ucs4.
Proof.
  constructor.
  - exists None. split; [exact I|reflexivity].
  - intros ost wc (m & M & ->) U. destruct (enc7_at m wc M U) as (need & N & E). destruct (enc7 m wc) as [[bs m']|] eqn:X.
    + exists (Some (bs, word m')), need. repeat split; auto. exists m'. split; [|reflexivity]. now apply (enc7_ok m wc bs m').
    + exists None, need. auto.
  - intros ost (m & M & ->). cbv [f_reset enc_utf7]. exists (close7 m), (word m). destruct (close7_ok m M) as (A & B).
    split; [unfold MAXNEED; lia|]. split; [now exists m|]. split; intros n N; rewrite reset7_at by exact M.
    + exists []. split; [|constructor]. destruct (Nat.ltb_spec n (length (close7 m))); [reflexivity|lia].
    + exists (logof 0 (close7 m) []). split; [|now apply logof_writes]. destruct (Nat.ltb_spec n (length (close7 m))); [lia|reflexivity].
Qed.
