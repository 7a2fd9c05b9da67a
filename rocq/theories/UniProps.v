(** The converters of the Unicode encoding forms agree with UniSpec.v. *)
From Coq Require Import ZArith List Bool Lia Znumtheory.
From Verif Require Import Base Loop Contract LoopLib Reflect Conv_uni Conv_sb Encodings Spec UniSpec.
Import ListNotations.
Open Scope Z_scope.
Ltac Zify.zify_post_hook ::= Z.to_euclidean_division_equations.

(** ** Bit operations as arithmetic *)
Lemma lor_shl : forall a b n, 0 <= n -> 0 <= b < 2 ^ n -> Z.lor (Z.shiftl a n) b = a * 2 ^ n + b.
Proof.
  intros a b n Hn Hb. rewrite <- Z.shiftl_mul_pow2 by exact Hn.
  assert (L : Z.land (Z.shiftl a n) b = 0).
  { apply Z.bits_inj'. intros k Hk. rewrite Z.land_spec, Z.bits_0.
    destruct (Z.ltb_spec k n).
    - rewrite Z.shiftl_spec_low by lia. reflexivity.
    - rewrite <- (Z.mod_small b (2 ^ n)) by exact Hb. rewrite Z.mod_pow2_bits_high by lia. apply andb_false_r. }
  rewrite Z.add_nocarry_lxor by exact L. symmetry. now apply Z.lxor_lor.
Qed.
Lemma lor_shr : forall a b n, 0 <= n -> 0 <= b < 2 ^ n -> Z.lor b (Z.shiftl a n) = a * 2 ^ n + b.
Proof. intros. rewrite Z.lor_comm. now apply lor_shl. Qed.
Lemma lor_mul : forall a b n m, 0 <= n -> m = 2 ^ n -> 0 <= b < m -> Z.lor (a * m) b = a * m + b.
Proof. intros a b n m H -> B. rewrite <- Z.shiftl_mul_pow2 at 1 by exact H. now apply lor_shl. Qed.
Lemma land_ones' : forall a n m, 0 <= n -> m = 2 ^ n - 1 -> Z.land a m = a mod (m + 1).
Proof.
  intros a n m H ->. replace (2 ^ n - 1 + 1) with (2 ^ n) by lia. rewrite <- Z.land_ones by exact H.
  f_equal. rewrite Z.ones_equiv. lia.
Qed.
Lemma land_3f : forall a, Z.land a 0x3f = a mod 64.
Proof. intros. now apply (land_ones' a 6). Qed.
Lemma land_1f : forall a, Z.land a 0x1f = a mod 32.
Proof. intros. now apply (land_ones' a 5). Qed.
Lemma land_f : forall a, Z.land a 0xf = a mod 16.
Proof. intros. now apply (land_ones' a 4). Qed.
Lemma land_7 : forall a, Z.land a 7 = a mod 8.
Proof. intros. now apply (land_ones' a 3). Qed.
Lemma land_3ff : forall a, Z.land a 0x3ff = a mod 1024.
Proof. intros. now apply (land_ones' a 10). Qed.
Lemma land_ff00 : forall a, Z.land a 0xff00 = a / 256 mod 256 * 256.
Proof.
  intros a. transitivity (Z.shiftl (Z.land (Z.shiftr a 8) 0xff) 8).
  - apply Z.bits_inj'. intros k Hk. rewrite Z.land_spec. destruct (Z.ltb_spec k 8).
    + rewrite Z.shiftl_spec_low by lia. replace (Z.testbit 0xff00 k) with false; [apply andb_false_r|].
      change 0xff00 with (Z.shiftl 0xff 8). now rewrite Z.shiftl_spec_low by lia.
    + rewrite Z.shiftl_spec_high by lia. rewrite Z.land_spec, Z.shiftr_spec by lia. replace (k - 8 + 8) with k by lia. f_equal.
      change 0xff00 with (Z.shiftl 0xff 8). now rewrite Z.shiftl_spec_high by lia.
  - rewrite Z.shiftl_mul_pow2, Z.shiftr_div_pow2, (land_ones' _ 8) by (lia || reflexivity). reflexivity.
Qed.
Lemma lxor80 : forall b, byte b -> Z.lxor b 0x80 = if b <? 128 then b + 128 else b - 128.
Proof.
  assert (H : forallb (fun n => let b := Z.of_nat n in Z.lxor b 0x80 =? (if b <? 128 then b + 128 else b - 128)) (seq 0 256) = true)
    by (vm_compute; reflexivity).
  intros b B. rewrite forallb_forall in H. specialize (H (Z.to_nat b)). cbv zeta in H. unfold byte in B. rewrite Z2Nat.id in H by lia.
  apply Z.eqb_eq, H. apply in_seq. lia.
Qed.
Lemma lxor80_lt : forall b, byte b -> (Z.lxor b 0x80 <? 0x40) = ((128 <=? b) && (b <? 192)).
Proof. intros b B. rewrite lxor80 by exact B. unfold byte in B. destruct (Z.ltb_spec b 128), (Z.leb_spec 128 b), (Z.ltb_spec b 192); cbn; lia. Qed.

(** ** What it means for a converter to implement a form *)
Record implements (f : funcs) (F : form) : Prop := {
  im_dec : forall c bs t i, F c = Some bs -> dec f (bs ++ t) i = Some (DChar (length bs) c i);
  im_enc : forall c ost, ucs4 c -> emit f c ost = match F c with Some bs => Some (bs, ost) | None => None end;
  im_only : forall s i k c i', bytes s -> s <> [] -> dec f s i = Some (DChar k c i') -> F c = Some (firstn k s) /\ i' = i;
  im_st : forall s i d, bytes s -> s <> [] -> dec f s i = Some d ->
    match d with DChar k _ _ => (1 <= k)%nat | DFew k i' | DIll k i' => k = 0%nat /\ i' = i end;
  im_pos : forall c bs, F c = Some bs -> bs <> [] /\ bytes bs /\ ucs4 c /\ (length bs <= 4)%nat }.

(** Case analysis on the conditions of the goal, turning comparisons into inequalities. *)
Ltac cmp1 :=
  match goal with
  | |- context [?a <? ?b] => destruct (Z.ltb_spec a b)
  | |- context [?a <=? ?b] => destruct (Z.leb_spec a b)
  | |- context [?a >=? ?b] => rewrite (Z.geb_leb a b); destruct (Z.leb_spec b a)
  | |- context [?a =? ?b] => destruct (Z.eqb_spec a b)
  end.
Ltac cmph H :=
  match type of H with
  | context [?a <? ?b] => destruct (Z.ltb_spec a b)
  | context [?a <=? ?b] => destruct (Z.leb_spec a b)
  | context [?a >=? ?b] => rewrite (Z.geb_leb a b) in H; destruct (Z.leb_spec b a)
  | context [?a =? ?b] => destruct (Z.eqb_spec a b)
  end.
Ltac arith :=
  unfold u8, u16, u32, byte, ucs4 in *;
  repeat first [ rewrite Z.shiftr_div_pow2 in * by lia | rewrite land_3f in * | rewrite land_1f in * | rewrite land_f in *
    | rewrite land_7 in * | rewrite land_3ff in * | rewrite land_ff00 in * ].
Ltac pw := repeat match goal with |- context [2 ^ Zpos ?n] => let v := eval compute in (2 ^ Zpos n) in change (2 ^ Zpos n) with v end;
  repeat match goal with H : context [2 ^ Zpos ?n] |- _ => let v := eval compute in (2 ^ Zpos n) in change (2 ^ Zpos n) with v in H end.

Ltac lors := repeat match goal with
  | |- context [Z.lor (Z.shiftl ?a ?n) ?b] => lazymatch b with context [Z.lor] => fail | _ => rewrite (lor_shl a b n) by lia end
  end.

Lemma dv_char : forall k w c i j n, 0 <= k -> n = Z.to_nat k -> w = c -> dview (Ok (k, Some w, i, j)) = Some (DChar n c (i, j)).
Proof. intros k w c i j n K -> ->. cbn. destruct (Z.ltb_spec k 0); [lia|reflexivity]. Qed.

Lemma scalar_spec : forall c, scalar c = true <-> 0 <= c < 0xd800 \/ 0xe000 <= c <= 0x10ffff.
Proof. intros c. unfold scalar. destruct (Z.leb_spec 0 c), (Z.ltb_spec c 0xd800), (Z.leb_spec 0xe000 c), (Z.leb_spec c 0x10ffff); cbn; split; intros; try lia; discriminate. Qed.
Lemma scalar_no : forall c, scalar c = false <-> c < 0 \/ 0xd800 <= c < 0xe000 \/ 0x10ffff < c.
Proof. intros c. unfold scalar. destruct (Z.leb_spec 0 c), (Z.ltb_spec c 0xd800), (Z.leb_spec 0xe000 c), (Z.leb_spec c 0x10ffff); cbn; split; intros; try lia; discriminate. Qed.

Lemma utf8_dec : forall c bs t i, utf8_form c = Some bs -> dec enc_utf8 (bs ++ t) i = Some (DChar (length bs) c i).
Proof.
  intros c bs t [ist ibo] H. unfold utf8_form in H. destruct (scalar c) eqn:S; [|discriminate]. apply scalar_spec in S.
  inversion H; subst bs; clear H. unfold utf8_bytes.
  assert (B : forall x, 0 <= x < 64 -> byte (0x80 + x)) by (unfold byte; lia).
  unfold dec. cbn [fst snd]. change (f_mb enc_utf8) with (mb0 utf8_mbtowc). unfold mb0, utf8_mbtowc, rd.
  destruct (Z.ltb_spec c 0x80); [|destruct (Z.ltb_spec c 0x800); [|destruct (Z.ltb_spec c 0x10000)]]; cbn [app length nth_error].
  - destruct (Z.ltb_spec c 0x80); [|lia]. reflexivity.
  - rewrite !lxor80_lt, !lxor80 by (apply B; lia). arith.
    repeat (cmp1; try lia; cbn [Nat.ltb Nat.leb andb]). lors. pw. apply dv_char; lia.
  - unfold utf8_mbtowc_j. rewrite !lxor80_lt, !lxor80 by (apply B; lia). arith.
    repeat (cmp1; try lia; cbn [Nat.ltb Nat.leb andb negb]); rewrite <- !Z.lor_assoc; lors; pw; apply dv_char; lia.
  - unfold utf8_mbtowc_j2. rewrite !lxor80_lt, !lxor80 by (apply B; lia). arith.
    repeat (cmp1; try lia; cbn [Nat.ltb Nat.leb andb negb]); rewrite <- !Z.lor_assoc; lors; pw; apply dv_char; lia.
Qed.

Ltac logs :=
  repeat match goal with |- context [Z.to_nat (Zpos ?p)] => let v := eval compute in (Z.to_nat (Zpos p)) in change (Z.to_nat (Zpos p)) with v end;
  cbn [log_bytes lfind wr Nat.eqb Nat.add].
Lemma cons_eq : forall (a b : Z) l m, a = b -> l = m -> a :: l = b :: m.
Proof. intros. now f_equal. Qed.
Ltac conseq := repeat (apply cons_eq; [lia|]); reflexivity.
Lemma emit_ok : forall f c ost k log bs ost', f_wc f c 16 ost = Ok (k, log, ost') -> 0 <= k -> log_bytes log 0 (Z.to_nat k) = bs ->
  emit f c ost = Some (bs, ost').
Proof. intros f c ost k log bs ost' E K <-. unfold emit. rewrite E. destruct (Z.ltb_spec k 0); [lia|reflexivity]. Qed.
Lemma emit_ill : forall f c ost k log ost', f_wc f c 16 ost = Ok (k, log, ost') -> k < 0 -> emit f c ost = None.
Proof. intros f c ost k log ost' E K. unfold emit. rewrite E. destruct (Z.ltb_spec k 0); [reflexivity|lia]. Qed.
(** Adding a bit above all others. *)
Lemma lor_bit : forall b m n, 0 <= n -> m = 2 ^ n -> 0 <= b < m -> Z.lor b m = m + b.
Proof. intros b m n H -> B. rewrite Z.lor_comm. pose proof (lor_shl 1 b n H B) as L. rewrite Z.shiftl_1_l in L. lia. Qed.
Lemma lor_80 : forall b, 0 <= b < 64 -> Z.lor 0x80 b = 0x80 + b.
Proof. intros b B. change 0x80 with (Z.shiftl 2 6). rewrite lor_shl by lia. reflexivity. Qed.
Lemma lor_c0 : forall b, 0 <= b < 64 -> Z.lor b 0xc0 = 0xc0 + b.
Proof. intros b B. rewrite Z.lor_comm. change 0xc0 with (Z.shiftl 3 6). rewrite lor_shl by lia. reflexivity. Qed.

Lemma utf8_enc : forall c ost, ucs4 c -> emit enc_utf8 c ost = match utf8_form c with Some bs => Some (bs, ost) | None => None end.
Proof.
  intros c ost C. unfold utf8_form, ucs4 in *. destruct (scalar c) eqn:S.
  - apply scalar_spec in S. unfold utf8_bytes.
    assert (E : f_wc enc_utf8 c 16 ost = match utf8_wctomb c 16 with Ok (k, log) => Ok (k, log, ost) | UB => UB | Abort => Abort | NoFuel => NoFuel end) by reflexivity.
    unfold utf8_wctomb in E.
    destruct (Z.ltb_spec c 0x80); [|destruct (Z.ltb_spec c 0x800); [|destruct (Z.ltb_spec c 0x10000)]].
    + eapply emit_ok; [exact E|lia|]. logs. arith. conseq.
    + eapply emit_ok; [exact E|lia|]. logs. arith. pw.
      rewrite lor_c0 by lia. rewrite lor_80 by lia. conseq.
    + assert (X : (if c <? 0xd800 then true else c >=? 0xe000) = true).
      { rewrite Z.geb_leb. destruct (Z.ltb_spec c 0xd800); [reflexivity|]. apply Z.leb_le. lia. }
      rewrite X in E. eapply emit_ok; [exact E|lia|]. logs. arith. pw.
      rewrite (lor_bit (c / 64) 0x800 11) by lia.
      rewrite !lor_80 by lia. 
      replace ((0x800 + c / 64) / 64) with (32 + c / 4096) by lia.
      assert (Y : Z.lor (32 + c / 4096) 0xc0 = 0xe0 + c / 4096).
      { change 0xc0 with (Z.shiftl 3 6). rewrite Z.lor_comm, lor_shl by lia. lia. }
      rewrite Y. conseq.
    + destruct (Z.ltb_spec c 0x110000); [|lia].
      eapply emit_ok; [exact E|lia|]. logs. arith. pw.
      rewrite (lor_bit (c / 64) 0x10000 16) by lia.
      replace ((0x10000 + c / 64) / 64) with (1024 + c / 4096) by lia.
      assert (Y : Z.lor (1024 + c / 4096) 0x800 = 0xc00 + c / 4096).
      { change 0x800 with (Z.shiftl 1 11). rewrite Z.lor_comm, lor_shl by lia. lia. }
      rewrite Y. replace ((0xc00 + c / 4096) / 64) with (48 + c / 262144) by lia.
      assert (Y2 : Z.lor (48 + c / 262144) 0xc0 = 0xf0 + c / 262144).
      { change 0xc0 with (Z.shiftl 3 6). rewrite Z.lor_comm, lor_shl by lia. lia. }
      rewrite Y2. rewrite !lor_80 by lia. conseq.
  - apply scalar_no in S.
    assert (E : f_wc enc_utf8 c 16 ost = match utf8_wctomb c 16 with Ok (k, log) => Ok (k, log, ost) | UB => UB | Abort => Abort | NoFuel => NoFuel end) by reflexivity.
    unfold utf8_wctomb in E. rewrite Z.geb_leb in E. repeat cmph E; try lia; cbn [negb] in E; (eapply emit_ill; [exact E|lia]).
Qed.

(** Reading the result of a decoder back. *)
Lemma dv_neg : forall k w i j d, k < 0 -> dview (Ok (k, w, i, j)) = Some d -> k = -1 \/ k = -2 ->
  match d with DChar _ _ _ => False | DFew k i' | DIll k i' => k = 0%nat /\ i' = (i, j) end.
Proof.
  intros k w i j d K H [-> | ->]; cbn in H; inversion H; subst; auto.
Qed.
Lemma dv_some : forall k w i j d, 0 <= k -> dview (Ok (k, Some w, i, j)) = Some d -> d = DChar (Z.to_nat k) w (i, j).
Proof. intros k w i j d K H. cbn in H. destruct (Z.ltb_spec k 0); [lia|]. now inversion H. Qed.

(** The shape of the results of a stateless decoder, and the form of what it delivers. *)
Definition good_res (F : form) (s : list Z) (i : Z * Z) (d : dres) : Prop :=
  match d with
  | DChar k c i' => (1 <= k)%nat /\ i' = i /\ F c = Some (firstn k s)
  | DFew k i' | DIll k i' => k = 0%nat /\ i' = i
  end.
Lemma gr_neg : forall F s k w i j d, dview (Ok (k, w, i, j)) = Some d -> k = -1 \/ k = -2 -> good_res F s (i, j) d.
Proof. intros F s k w i j d H K. destruct K as [-> | ->]; cbn in H; inversion H; subst; cbn; auto. Qed.
Lemma gr_char : forall F s k w i j d, dview (Ok (k, Some w, i, j)) = Some d -> 1 <= k -> F w = Some (firstn (Z.to_nat k) s) -> good_res F s (i, j) d.
Proof. intros F s k w i j d H K E. apply dv_some in H; [|lia]. subst d. cbn. split; [lia|auto]. Qed.

Ltac bytes_of := repeat match goal with
  | H : bytes (_ :: _) |- _ => unfold bytes in H
  | H : Forall byte (_ :: _) |- _ => let A := fresh "B" in apply Forall_inv in H as A; apply Forall_inv_tail in H
  end.

Lemma utf8_res : forall s i d, bytes s -> s <> [] -> dec enc_utf8 s i = Some d -> good_res utf8_form s i d.
Proof.
  intros s [ist ibo] d Bs N H. unfold dec in H. cbn [fst snd] in H. change (f_mb enc_utf8) with (mb0 utf8_mbtowc) in H. unfold mb0, utf8_mbtowc, rd in H.
  destruct s as [|c s]; [congruence|]. bytes_of. cbn [nth_error] in H.
  destruct (Z.ltb_spec c 0x80).
  { eapply gr_char; [exact H|lia|]. unfold utf8_form, utf8_bytes. destruct (scalar c) eqn:S; [|apply scalar_no in S; unfold byte in *; lia].
    destruct (Z.ltb_spec c 0x80); [reflexivity|lia]. }
  destruct (Z.ltb_spec c 0xc2); [eapply gr_neg; [exact H|lia]|].
  destruct (Z.ltb_spec c 0xe0).
  { destruct s as [|x s]; cbn [length Nat.ltb Nat.leb nth_error] in H; [eapply gr_neg; [exact H|lia]|]. bytes_of.
    rewrite lxor80_lt, lxor80 in H by assumption.
    destruct (Z.leb_spec 128 x), (Z.ltb_spec x 192); cbn [andb] in H; try (eapply gr_neg; [exact H|lia]).
    destruct (Z.ltb_spec x 128); [lia|]. rewrite land_1f, lor_shl in H by lia.
    eapply gr_char; [exact H|lia|]. logs. cbn [firstn]. unfold utf8_form, utf8_bytes. pw.
    match goal with |- context [scalar ?z] => destruct (scalar z) eqn:S; [|apply scalar_no in S; unfold byte in *; lia] end.
    unfold byte in *.
    repeat (cmp1; try lia). f_equal. conseq. }
  destruct (Z.ltb_spec c 0xf0).
  { destruct s as [|x [|y s]]; cbn [length Nat.ltb Nat.leb nth_error] in H; try (eapply gr_neg; [exact H|lia]). bytes_of.
    unfold utf8_mbtowc_j in H. rewrite !lxor80_lt, !lxor80 in H by assumption. rewrite Z.geb_leb in H.
    destruct (Z.leb_spec 128 x), (Z.ltb_spec x 192); cbn [andb] in H; try (eapply gr_neg; [exact H|lia]).
    destruct (Z.leb_spec 128 y), (Z.ltb_spec y 192); cbn [andb] in H; try (eapply gr_neg; [exact H|lia]).
    destruct (Z.ltb_spec x 128); [lia|]. destruct (Z.ltb_spec y 128); [lia|].
    rewrite land_f, <- Z.lor_assoc in H.
    replace (Z.lor (Z.shiftl (x - 128) 6) (y - 128)) with ((x - 128) * 64 + (y - 128)) in H by (rewrite lor_shl by lia; reflexivity).
    rewrite lor_shl in H by lia. rewrite Z.geb_leb in H.
    repeat (cmph H; cbn [negb] in H; try lia; try (eapply gr_neg; [exact H|lia]));
    (eapply gr_char; [exact H|lia|]); logs; cbn [firstn]; unfold utf8_form, utf8_bytes; pw;
    (match goal with |- context [scalar ?z] => destruct (scalar z) eqn:S; [|apply scalar_no in S; unfold byte in *; lia] end);
    unfold byte in *; repeat (cmp1; try lia); f_equal; conseq. }
  destruct (Z.ltb_spec c 0xf8); cbn [Z.geb Z.compare Pos.compare Pos.compare_cont] in H; [|eapply gr_neg; [exact H|lia]].
  { destruct s as [|x [|y [|z s]]]; cbn [length Nat.ltb Nat.leb nth_error] in H; try (eapply gr_neg; [exact H|lia]). bytes_of.
    unfold utf8_mbtowc_j2 in H. rewrite !lxor80_lt, !lxor80 in H by assumption. rewrite Z.geb_leb in H.
    destruct (Z.leb_spec 128 x), (Z.ltb_spec x 192); cbn [andb] in H; try (eapply gr_neg; [exact H|lia]).
    destruct (Z.leb_spec 128 y), (Z.ltb_spec y 192); cbn [andb] in H; try (eapply gr_neg; [exact H|lia]).
    destruct (Z.leb_spec 128 z), (Z.ltb_spec z 192); cbn [andb] in H; try (eapply gr_neg; [exact H|lia]).
    destruct (Z.ltb_spec x 128); [lia|]. destruct (Z.ltb_spec y 128); [lia|]. destruct (Z.ltb_spec z 128); [lia|].
    rewrite land_7, <- !Z.lor_assoc in H.
    replace (Z.lor (Z.shiftl (y - 128) 6) (z - 128)) with ((y - 128) * 64 + (z - 128)) in H by (rewrite lor_shl by lia; reflexivity).
    replace (Z.lor (Z.shiftl (x - 128) 12) ((y - 128) * 64 + (z - 128))) with ((x - 128) * 4096 + ((y - 128) * 64 + (z - 128))) in H
      by (rewrite lor_shl by lia; reflexivity).
    rewrite lor_shl in H by lia. rewrite Z.geb_leb in H.
    repeat (cmph H; cbn [negb] in H; try lia; try (eapply gr_neg; [exact H|lia]));
    (eapply gr_char; [exact H|lia|]); logs; cbn [firstn]; unfold utf8_form, utf8_bytes; pw;
    (match goal with |- context [scalar ?z] => destruct (scalar z) eqn:S; [|apply scalar_no in S; unfold byte in *; lia] end);
    unfold byte in *; repeat (cmp1; try lia); f_equal; conseq. }
Qed.

(** ** Forms with units of fixed width: digits base 256 *)
Lemma digits2 : forall u, 0 <= u < 0x10000 -> exists a b, byte a /\ byte b /\ u = a * 256 + b /\ u / 256 = a /\ u mod 256 = b.
Proof. intros u H. exists (u / 256), (u mod 256). unfold byte. repeat split; lia. Qed.
Lemma digits4 : forall u, 0 <= u < 0x100000000 -> exists a b c d, byte a /\ byte b /\ byte c /\ byte d /\
  u = a * 16777216 + b * 65536 + c * 256 + d /\ u / 16777216 = a /\ u / 65536 mod 256 = b /\ u / 256 mod 256 = c /\ u mod 256 = d /\
  (a = 0 -> u / 65536 = b).
Proof. intros u H. exists (u / 16777216), (u / 65536 mod 256), (u / 256 mod 256), (u mod 256). unfold byte. repeat split; lia. Qed.
Lemma join2 : forall a b, byte a -> byte b -> (a * 256 + b) / 256 = a /\ (a * 256 + b) mod 256 = b.
Proof. unfold byte. intros. split; lia. Qed.
Lemma join4 : forall a b c d, byte a -> byte b -> byte c -> byte d -> let u := a * 16777216 + b * 65536 + c * 256 + d in
  u / 16777216 = a /\ u / 65536 mod 256 = b /\ u / 256 mod 256 = c /\ u mod 256 = d.
Proof. unfold byte. cbn zeta. intros. repeat split; lia. Qed.
Lemma digits10 : forall c, 0x10000 <= c <= 0x10ffff -> exists h1 h0 l1 l0, 0 <= h1 < 4 /\ byte h0 /\ 0 <= l1 < 4 /\ byte l0 /\
  c = 0x10000 + (h1 * 256 + h0) * 1024 + (l1 * 256 + l0) /\ (c - 0x10000) / 1024 = h1 * 256 + h0 /\ (c - 0x10000) mod 1024 = l1 * 256 + l0 /\
  (0xd800 + (h1 * 256 + h0)) / 256 = 0xd8 + h1 /\ (0xd800 + (h1 * 256 + h0)) mod 256 = h0 /\
  (0xdc00 + (l1 * 256 + l0)) / 256 = 0xdc + l1 /\ (0xdc00 + (l1 * 256 + l0)) mod 256 = l0.
Proof.
  intros c H. exists ((c - 0x10000) / 1024 / 256), ((c - 0x10000) / 1024 mod 256), ((c - 0x10000) mod 1024 / 256), ((c - 0x10000) mod 1024 mod 256).
  assert (0 <= (c - 0x10000) / 1024 < 1024) by lia. assert (0 <= (c - 0x10000) mod 1024 < 1024) by lia.
  assert (c = 0x10000 + (c - 0x10000) / 1024 * 1024 + (c - 0x10000) mod 1024) by lia.
  generalize dependent ((c - 0x10000) / 1024). generalize dependent ((c - 0x10000) mod 1024). intros l L h Hh E. unfold byte. repeat split; lia.
Qed.
Lemma lor4 : forall a b c d, byte a -> byte b -> byte c -> byte d ->
  Z.lor (Z.lor (Z.lor d (Z.shiftl c 8)) (Z.shiftl b 16)) (Z.shiftl a 24) = a * 16777216 + b * 65536 + c * 256 + d.
Proof.
  intros a b c d A B C D. unfold byte in *. rewrite (lor_shr c d 8) by lia. rewrite (lor_shr b _ 16) by lia. rewrite (lor_shr a _ 24) by lia. lia.
Qed.
(** The byte swap of ucs4swapped (UCS4_SWAPPED, lib/converters/ucs4swapped.h). *)
Lemma swap4 : forall a b c d, byte a -> byte b -> byte c -> byte d -> let x := a * 16777216 + b * 65536 + c * 256 + d in
  Z.lor (Z.lor (Z.lor (Z.shiftr x 0x18) (Z.land (Z.shiftr x 8) 0xff00)) (Z.shiftl (Z.land x 0xff00) 8)) (u32 (Z.shiftl x 0x18)) =
  d * 16777216 + c * 65536 + b * 256 + a.
Proof.
  intros a b c d A B C D x. subst x. unfold byte in *. rewrite !land_ff00, !Z.shiftr_div_pow2, !Z.shiftl_mul_pow2 by lia. unfold u32. pw.
  replace ((a * 16777216 + b * 65536 + c * 256 + d) / 16777216) with a by lia.
  replace ((a * 16777216 + b * 65536 + c * 256 + d) / 256 / 256 mod 256) with b by lia.
  replace ((a * 16777216 + b * 65536 + c * 256 + d) / 256 mod 256) with c by lia.
  replace ((a * 16777216 + b * 65536 + c * 256 + d) * 16777216 mod 4294967296) with (d * 16777216) by lia.
  replace (c * 256 * 256) with (c * 65536) by lia.
  pose proof (lor4 d c b a D C B A) as L. rewrite !Z.shiftl_mul_pow2 in L by lia. pw. exact L.
Qed.
Lemma swap2 : forall a b, byte a -> byte b -> let x := a * 256 + b in u16 (Z.lor (Z.shiftr x 8) (Z.shiftl x 8)) = b * 256 + a.
Proof.
  intros a b A B x. subst x. unfold byte, u16 in *. rewrite Z.shiftr_div_pow2 by lia. pw. replace ((a * 256 + b) / 256) with a by lia.
  rewrite lor_shr by lia. pw. lia.
Qed.
Lemma lor2 : forall a b, byte a -> byte b -> Z.lor b (Z.shiftl a 8) = a * 256 + b.
Proof. intros a b A B. unfold byte in *. rewrite lor_shr by lia. lia. Qed.
Lemma shl_bytes : forall a, Z.shiftl a 8 = a * 256 /\ Z.shiftl a 16 = a * 65536 /\ Z.shiftl a 24 = a * 16777216 /\ Z.shiftl a 10 = a * 1024.
Proof. intros. rewrite !Z.shiftl_mul_pow2 by lia. auto. Qed.
Ltac Zify.zify_post_hook ::= idtac.

Ltac cases_form F :=
  unfold F in *;
  repeat match goal with
  | H : (if ?b then _ else _) = Some _ |- _ => destruct b eqn:?; [|discriminate]
  end;
  repeat match goal with
  | H : (_ && _) = true |- _ => apply andb_prop in H; destruct H
  | H : scalar _ = true |- _ => apply scalar_spec in H
  | H : scalar _ = false |- _ => apply scalar_no in H
  | H : (_ <? _) = true |- _ => apply Z.ltb_lt in H
  | H : (_ <=? _) = true |- _ => apply Z.leb_le in H
  end.
Ltac shls := rewrite ?(fun a => proj1 (shl_bytes a)), ?(fun a => proj1 (proj2 (shl_bytes a))), ?(fun a => proj1 (proj2 (proj2 (shl_bytes a)))),
  ?(fun a => proj2 (proj2 (proj2 (shl_bytes a)))).
Ltac open_dec enc fn :=
  unfold dec; cbn [fst snd]; change (f_mb enc) with (mb0 fn); unfold mb0, fn, rd; cbn [app length nth_error Nat.leb Nat.ltb negb Z.eqb Pos.eqb]; cbv zeta.
Ltac fin := repeat (cmp1; try lia; cbn [negb]); apply dv_char; lia.
Ltac w_dec2 enc fn F :=
  intros c bs t [ist ibo] H; cases_form F; inversion H; subst bs; clear H;
  destruct (digits2 c) as (a & b & A & B & E & E1 & E2); [lia|]; unfold be16, le16; rewrite E1, E2; open_dec enc fn;
  rewrite ?(lor2 a b), ?(lor2 b a) by assumption; rewrite ?swap2 by assumption; shls; unfold byte in *; fin.
Ltac w_dec4 enc fn F :=
  intros c bs t [ist ibo] H; cases_form F; inversion H; subst bs; clear H;
  destruct (digits4 c) as (a & b & c' & d & A & B & C & D & E & E1 & E2 & E3 & E4 & _); [lia|]; unfold be32, le32; rewrite E1, E2, E3, E4; open_dec enc fn;
  rewrite ?(lor4 a b c' d), ?(lor4 d c' b a) by assumption; rewrite ?swap4 by assumption; shls; unfold byte in *; fin.
Definition dec_imp (f : funcs) (F : form) : Prop := forall c bs t i, F c = Some bs -> dec f (bs ++ t) i = Some (DChar (length bs) c i).
Lemma ucs2be_dec : dec_imp enc_ucs2be ucs2be_form.
Proof. w_dec2 enc_ucs2be ucs2be_mbtowc ucs2be_form. Qed.
Lemma ucs2le_dec : dec_imp enc_ucs2le ucs2le_form.
Proof. w_dec2 enc_ucs2le ucs2le_mbtowc ucs2le_form. Qed.
Lemma ucs2internal_dec : dec_imp enc_ucs2internal ucs2le_form.
Proof. w_dec2 enc_ucs2internal ucs2internal_mbtowc ucs2le_form. Qed.
Lemma ucs2swapped_dec : dec_imp enc_ucs2swapped ucs2be_form.
Proof. w_dec2 enc_ucs2swapped ucs2swapped_mbtowc ucs2be_form. Qed.
Lemma ucs4be_dec : dec_imp enc_ucs4be ucs4be_form.
Proof. w_dec4 enc_ucs4be ucs4be_mbtowc ucs4be_form. Qed.
Lemma ucs4le_dec : dec_imp enc_ucs4le ucs4le_form.
Proof. w_dec4 enc_ucs4le ucs4le_mbtowc ucs4le_form. Qed.
Lemma ucs4internal_dec : dec_imp enc_ucs4internal ucs4le_form.
Proof. w_dec4 enc_ucs4internal ucs4internal_mbtowc ucs4le_form. Qed.
Lemma ucs4swapped_dec : dec_imp enc_ucs4swapped ucs4be_form.
Proof. w_dec4 enc_ucs4swapped ucs4swapped_mbtowc ucs4be_form. Qed.
Lemma utf32be_dec : dec_imp enc_utf32be utf32be_form.
Proof. w_dec4 enc_utf32be utf32be_mbtowc utf32be_form. Qed.
Lemma utf32le_dec : dec_imp enc_utf32le utf32le_form.
Proof. w_dec4 enc_utf32le utf32le_mbtowc utf32le_form. Qed.

(** UTF-16 with the surrogates as numbers. *)
Lemma some_inj : forall (A : Type) (a b : A), Some a = Some b -> b = a.
Proof. congruence. Qed.
Lemma utf16be_dec : dec_imp enc_utf16be utf16be_form.
Proof.
  intros c bs t [ist ibo] H; cases_form utf16be_form; unfold utf16_units in H; destruct (Z.ltb_spec c 0x10000); cbn [map concat app] in H; apply some_inj in H; subst bs; unfold be16, le16.
  - destruct (digits2 c) as (a & b & A & B & E & E1 & E2); [lia|]; rewrite E1, E2. clear E1 E2. open_dec enc_utf16be utf16be_mbtowc. shls.
    rewrite <- E. rewrite !Z.geb_leb.
    replace (if 0xd800 <=? c then c <? 0xdc00 else false) with false by (repeat cmp1; lia || reflexivity).
    replace (if 0xdc00 <=? c then c <? 0xe000 else false) with false by (repeat cmp1; lia || reflexivity).
    apply dv_char; lia.
  - destruct (digits10 c) as (h1 & h0 & l1 & l0 & A & B & C & D & E & E1 & E2 & E3 & E4 & E5 & E6); [lia|]; rewrite E1, E2, E3, E4, E5, E6.
   clear E1 E2 E3 E4 E5 E6. open_dec enc_utf16be utf16be_mbtowc. shls. unfold byte in *.
    rewrite !Z.geb_leb.
    replace (0xd800 <=? (0xd8 + h1) * 256 + h0) with true by lia.
    replace ((0xd8 + h1) * 256 + h0 <? 0xdc00) with true by lia.
    replace (0xdc00 <=? (0xdc + l1) * 256 + l0) with true by lia.
    replace ((0xdc + l1) * 256 + l0 <? 0xe000) with true by lia. cbn [negb].
    apply dv_char; lia.
Qed.
Lemma utf16le_dec : dec_imp enc_utf16le utf16le_form.
Proof.
  intros c bs t [ist ibo] H; cases_form utf16le_form; unfold utf16_units in H; destruct (Z.ltb_spec c 0x10000); cbn [map concat app] in H; apply some_inj in H; subst bs; unfold be16, le16.
  - destruct (digits2 c) as (a & b & A & B & E & E1 & E2); [lia|]; rewrite E1, E2. clear E1 E2. open_dec enc_utf16le utf16le_mbtowc. shls.
    replace (b + a * 256) with c by lia. rewrite !Z.geb_leb.
    replace (if 0xd800 <=? c then c <? 0xdc00 else false) with false by (repeat cmp1; lia || reflexivity).
    replace (if 0xdc00 <=? c then c <? 0xe000 else false) with false by (repeat cmp1; lia || reflexivity).
    apply dv_char; lia.
  - destruct (digits10 c) as (h1 & h0 & l1 & l0 & A & B & C & D & E & E1 & E2 & E3 & E4 & E5 & E6); [lia|]; rewrite E1, E2, E3, E4, E5, E6.
   clear E1 E2 E3 E4 E5 E6. open_dec enc_utf16le utf16le_mbtowc. shls. unfold byte in *.
    rewrite !Z.geb_leb.
    replace (0xd800 <=? h0 + (0xd8 + h1) * 256) with true by lia.
    replace (h0 + (0xd8 + h1) * 256 <? 0xdc00) with true by lia.
    replace (0xdc00 <=? l0 + (0xdc + l1) * 256) with true by lia.
    replace (l0 + (0xdc + l1) * 256 <? 0xe000) with true by lia. cbn [negb].
    apply dv_char; lia.
Qed.

(** ** Encoders of the fixed-width forms *)
Definition enc_imp (f : funcs) (F : form) : Prop := forall c ost, ucs4 c -> emit f c ost = match F c with Some bs => Some (bs, ost) | None => None end.
Lemma emit0 : forall f g c ost, f_wc f = wc0 g -> emit f c ost =
  match g c 16%nat with Ok (k, log) => if k <? 0 then None else Some (log_bytes log 0 (Z.to_nat k), ost) | _ => None end.
Proof. intros f g c ost H. unfold emit. rewrite H. unfold wc0. destruct (g c 16%nat) as [[k log]| | |]; reflexivity. Qed.
Ltac open_enc g := 
  erewrite (emit0 _ g) by reflexivity; unfold g; cbn [Nat.leb negb Z.eqb Pos.eqb]; cbv zeta; rewrite ?Z.geb_leb; unfold ucs4 in *.
Ltac shrs := rewrite ?Z.shiftr_div_pow2 by lia; unfold u8; pw.
Ltac out k := cbn [Z.ltb Z.compare Z.opp Pos.compare Pos.compare_cont]; change (Z.to_nat k) with (ltac:(let v := eval compute in (Z.to_nat k) in exact v)); cbn [log_bytes lfind wr Nat.eqb Nat.add app].
Lemma mod_div : forall c m, (c / m) mod 256 = c / m mod 256.
Proof. reflexivity. Qed.
Ltac w_enc2 g F :=
  intros c ost C; open_enc g; unfold F, scalar; 
  destruct (Z.ltb_spec c 0x10000);
  [destruct (digits2 c) as (a & b & A & B & E & E1 & E2); [lia|];
   rewrite ?Z.geb_leb;
   repeat match goal with |- context [?x <=? c] => destruct (Z.leb_spec x c) | |- context [c <? ?x] => destruct (Z.ltb_spec c x) | |- context [c <=? ?x] => destruct (Z.leb_spec c x) end; cbn [andb orb negb]; try lia; try reflexivity;
   try (rewrite E, ?swap2 by assumption; rewrite <- E); shrs; out 2; unfold be16, le16; rewrite ?E1, ?E2, ?(proj1 (join2 b a B A)), ?(proj2 (join2 b a B A)); reflexivity
  |repeat cmp1; cbn [andb orb negb]; try lia; reflexivity].
Lemma ucs2be_enc : enc_imp enc_ucs2be ucs2be_form.
Proof. w_enc2 ucs2be_wctomb ucs2be_form. Qed.
Lemma ucs2le_enc : enc_imp enc_ucs2le ucs2le_form.
Proof. w_enc2 ucs2le_wctomb ucs2le_form. Qed.
Lemma ucs2internal_enc : enc_imp enc_ucs2internal ucs2le_form.
Proof. w_enc2 ucs2internal_wctomb ucs2le_form. Qed.
Lemma ucs2swapped_enc : enc_imp enc_ucs2swapped ucs2be_form.
Proof. w_enc2 ucs2swapped_wctomb ucs2be_form. Qed.
Ltac w_enc4 g F :=
  intros c ost C; open_enc g; unfold F, scalar;
  destruct (digits4 c) as (a & b & c' & d & A & B & C' & D & E & E1 & E2 & E3 & E4 & E5); [lia|];
  repeat match goal with |- context [?x <=? c] => destruct (Z.leb_spec x c) | |- context [c <? ?x] => destruct (Z.ltb_spec c x) | |- context [c <=? ?x] => destruct (Z.leb_spec c x) end;
  cbn [andb orb negb]; try lia; try reflexivity;
  (try (rewrite E, ?swap4 by assumption; rewrite <- E)); shrs; out 4; unfold be32, le32;
  pose proof (join4 d c' b a D C' B A) as (J1 & J2 & J3 & J4);
  rewrite ?E1, ?E2, ?E3, ?E4, ?J1, ?J2, ?J3, ?J4; try reflexivity;
  assert (a = 0) by (unfold byte in *; lia); rewrite (E5 ltac:(assumption)); f_equal; f_equal; conseq.
Lemma ucs4be_enc : enc_imp enc_ucs4be ucs4be_form.
Proof. w_enc4 ucs4be_wctomb ucs4be_form. Qed.
Lemma ucs4le_enc : enc_imp enc_ucs4le ucs4le_form.
Proof. w_enc4 ucs4le_wctomb ucs4le_form. Qed.
Lemma ucs4internal_enc : enc_imp enc_ucs4internal ucs4le_form.
Proof. w_enc4 ucs4internal_wctomb ucs4le_form. Qed.
Lemma ucs4swapped_enc : enc_imp enc_ucs4swapped ucs4be_form.
Proof. w_enc4 ucs4swapped_wctomb ucs4be_form. Qed.
Lemma utf32be_enc : enc_imp enc_utf32be utf32be_form.
Proof. w_enc4 utf32be_wctomb utf32be_form. Qed.
Lemma utf32le_enc : enc_imp enc_utf32le utf32le_form.
Proof. w_enc4 utf32le_wctomb utf32le_form. Qed.
Ltac csplit c := repeat match goal with |- context [?x <=? c] => destruct (Z.leb_spec x c) | |- context [c <? ?x] => destruct (Z.ltb_spec c x) | |- context [c <=? ?x] => destruct (Z.leb_spec c x) end;
  cbn [andb orb negb map concat app]; try lia; try reflexivity.
Ltac w_enc16 g F :=
  intros c ost C; open_enc g; unfold F, scalar, utf16_units;
  destruct (Z.ltb_spec c 0x10000);
  [destruct (digits2 c) as (a & b & A & B & E & E1 & E2); [lia|]; csplit c; shrs; out 2; unfold be16, le16; rewrite E1, E2; reflexivity|];
  csplit c; destruct (digits10 c) as (h1 & h0 & l1 & l0 & A & B & C' & D & E & E1 & E2 & E3 & E4 & E5 & E6); [lia|];
  rewrite ?land_3ff; shrs; out 4; unfold be16, le16; rewrite E1, E2, E3, E4, E5, E6; reflexivity.
Lemma utf16be_enc : enc_imp enc_utf16be utf16be_form.
Proof. w_enc16 utf16be_wctomb utf16be_form. Qed.
Lemma utf16le_enc : enc_imp enc_utf16le utf16le_form.
Proof. w_enc16 utf16le_wctomb utf16le_form. Qed.

(** ** What the decoders of the fixed-width forms deliver *)
Definition res_imp (f : funcs) (F : form) : Prop := forall s i d, bytes s -> s <> [] -> dec f s i = Some d -> good_res F s i d.
Ltac open_res enc fn H :=
  unfold dec in H; cbn [fst snd] in H; change (f_mb enc) with (mb0 fn) in H; unfold mb0, fn, rd in H; cbn [negb Z.eqb Pos.eqb] in H; cbv zeta in H.
Ltac shl_in H := rewrite ?(fun a => proj1 (shl_bytes a)), ?(fun a => proj1 (proj2 (shl_bytes a))), ?(fun a => proj1 (proj2 (proj2 (shl_bytes a)))),
  ?(fun a => proj2 (proj2 (proj2 (shl_bytes a)))) in H.
Ltac sc := match goal with |- context [scalar ?z] => destruct (scalar z) eqn:S; [|apply scalar_no in S; unfold byte in *; lia] end.
Ltac w_res2 enc fn F :=
  intros s [ist ibo] d Bs N H; open_res enc fn H;
  destruct s as [|x [|y s]]; [congruence|cbn [length Nat.leb Nat.ltb nth_error] in H; eapply gr_neg; [exact H|lia]|]; cbn [length Nat.leb Nat.ltb nth_error] in H; bytes_of;
  rewrite ?(lor2 y x) in H by assumption; rewrite ?swap2 in H by assumption; shl_in H;
  pose proof (join2 x y ltac:(assumption) ltac:(assumption)) as (J1 & J2); pose proof (join2 y x ltac:(assumption) ltac:(assumption)) as (J3 & J4);
  rewrite ?Z.geb_leb in H;
  repeat (cmph H; cbn [negb] in H; try lia; try (eapply gr_neg; [exact H|lia]));
  (eapply gr_char; [exact H|lia|]); logs; cbn [firstn]; unfold F; sc;
  rewrite ?(Z.add_comm x (y * 256)); 
  (match goal with |- context [?z <? 0x10000] => destruct (Z.ltb_spec z 0x10000); [|unfold byte in *; lia] end); cbn [andb]; unfold be16, le16; rewrite ?J1, ?J2, ?J3, ?J4; reflexivity.
Lemma ucs2be_res : res_imp enc_ucs2be ucs2be_form.
Proof. w_res2 enc_ucs2be ucs2be_mbtowc ucs2be_form. Qed.
Lemma ucs2le_res : res_imp enc_ucs2le ucs2le_form.
Proof. w_res2 enc_ucs2le ucs2le_mbtowc ucs2le_form. Qed.
Lemma ucs2internal_res : res_imp enc_ucs2internal ucs2le_form.
Proof. w_res2 enc_ucs2internal ucs2internal_mbtowc ucs2le_form. Qed.
Lemma ucs2swapped_res : res_imp enc_ucs2swapped ucs2be_form.
Proof. w_res2 enc_ucs2swapped ucs2swapped_mbtowc ucs2be_form. Qed.
Ltac w_res4 enc fn F :=
  intros s [ist ibo] d Bs N H; open_res enc fn H;
  destruct s as [|x [|y [|z [|w s]]]]; [congruence|cbn [length Nat.leb Nat.ltb nth_error] in H; eapply gr_neg; [exact H|lia]..|]; cbn [length Nat.leb Nat.ltb nth_error] in H; bytes_of;
  rewrite ?(lor4 w z y x) in H by assumption; rewrite ?swap4 in H by assumption; shl_in H;
  pose proof (join4 x y z w ltac:(assumption) ltac:(assumption) ltac:(assumption) ltac:(assumption)) as (J1 & J2 & J3 & J4);
  pose proof (join4 w z y x ltac:(assumption) ltac:(assumption) ltac:(assumption) ltac:(assumption)) as (K1 & K2 & K3 & K4);
  replace (x + y * 256 + z * 65536 + w * 16777216) with (w * 16777216 + z * 65536 + y * 256 + x) in H by lia;
  rewrite ?Z.geb_leb in H;
  repeat (cmph H; cbn [negb] in H; try lia; try (eapply gr_neg; [exact H|lia]));
  (eapply gr_char; [exact H|lia|]); logs; cbn [firstn]; unfold F; try sc;
  repeat (cmp1; [try (unfold byte in *; lia)|try (unfold byte in *; lia)]); cbn [andb];
  unfold be32, le32; rewrite ?J1, ?J2, ?J3, ?J4, ?K1, ?K2, ?K3, ?K4; reflexivity.
Lemma ucs4be_res : res_imp enc_ucs4be ucs4be_form.
Proof. w_res4 enc_ucs4be ucs4be_mbtowc ucs4be_form. Qed.
Lemma ucs4le_res : res_imp enc_ucs4le ucs4le_form.
Proof. w_res4 enc_ucs4le ucs4le_mbtowc ucs4le_form. Qed.
Lemma ucs4internal_res : res_imp enc_ucs4internal ucs4le_form.
Proof. w_res4 enc_ucs4internal ucs4internal_mbtowc ucs4le_form. Qed.
Lemma ucs4swapped_res : res_imp enc_ucs4swapped ucs4be_form.
Proof. w_res4 enc_ucs4swapped ucs4swapped_mbtowc ucs4be_form. Qed.
Lemma utf32be_res : res_imp enc_utf32be utf32be_form.
Proof. w_res4 enc_utf32be utf32be_mbtowc utf32be_form. Qed.
Lemma utf32le_res : res_imp enc_utf32le utf32le_form.
Proof. w_res4 enc_utf32le utf32le_mbtowc utf32le_form. Qed.

(** A surrogate pair gives back its two units. *)
Lemma units_pair : forall u v, 0xd800 <= u < 0xdc00 -> 0xdc00 <= v < 0xe000 ->
  let c := 0x10000 + (u - 0xd800) * 1024 + (v - 0xdc00) in scalar c = true /\ utf16_units c = [u; v].
Proof.
  intros u v U V c. split; [apply scalar_spec; lia|]. unfold utf16_units. destruct (Z.ltb_spec c 0x10000); [lia|].
  assert (E1 : (c - 0x10000) / 1024 = u - 0xd800) by (symmetry; apply (Z.div_unique _ _ _ (v - 0xdc00)); lia).
  assert (E2 : (c - 0x10000) mod 1024 = v - 0xdc00) by (symmetry; apply (Z.mod_unique _ _ (u - 0xd800)); lia).
  rewrite E1, E2. f_equal; [lia|f_equal; lia].
Qed.
Definition ube (x y : Z) : Z := x * 256 + y.
Definition ule (x y : Z) : Z := y * 256 + x.
Lemma ube_be : forall x y, byte x -> byte y -> be16 (ube x y) = [x; y] /\ 0 <= ube x y < 0x10000.
Proof. intros x y X Y. unfold be16, ube. destruct (join2 x y X Y) as (-> & ->). unfold byte in *. split; [reflexivity|lia]. Qed.
Lemma ule_le : forall x y, byte x -> byte y -> le16 (ule x y) = [x; y] /\ 0 <= ule x y < 0x10000.
Proof. intros x y X Y. unfold le16, ule. destruct (join2 y x Y X) as (-> & ->). unfold byte in *. split; [reflexivity|lia]. Qed.
Lemma utf16be_res : res_imp enc_utf16be utf16be_form.
Proof.
  intros s [ist ibo] d Bs N H; open_res enc_utf16be utf16be_mbtowc H.
  change (0 + 4) with 4 in H; change (0 + 2) with 2 in H; change (-1 - 2 * 0) with (-1) in H; change (-2 - 2 * 0) with (-2) in H.
  destruct s as [|x [|y s]]; [congruence|cbn [length Nat.leb Nat.ltb nth_error] in H; eapply gr_neg; [exact H|lia]|]; cbn [length Nat.leb Nat.ltb nth_error] in H; bytes_of.
  shl_in H. rewrite ?Z.geb_leb in H. change (x * 256 + y) with (ube x y) in H.
  destruct (ube_be x y) as (J1 & J2); [assumption..|].
  destruct (Z.leb_spec 0xd800 (ube x y)) as [U1|U1]; [destruct (Z.ltb_spec (ube x y) 0xdc00) as [U2|U2]|].
  1: { destruct s as [|z [|w s]]; cbn [length Nat.leb Nat.ltb nth_error] in H; [eapply gr_neg; [exact H|lia]..|]; bytes_of.
   shl_in H. change (z * 256 + w) with (ube z w) in H.
   destruct (ube_be z w) as (K1 & K2); [assumption..|]. rewrite ?Z.geb_leb in H.
   repeat (cmph H; cbn [negb] in H; try lia; try (eapply gr_neg; [exact H|lia])).
   destruct (units_pair (ube x y) (ube z w)) as (S1 & S2); [lia|lia|]. cbv zeta in S1, S2.
   eapply gr_char; [exact H|lia|]; logs; cbn [firstn]; unfold utf16be_form. rewrite S1, S2; cbn [map concat app]. rewrite J1, K1. reflexivity. }
  all: repeat (cmph H; cbn [negb] in H; try lia; try (eapply gr_neg; [exact H|lia])).
  all: (eapply gr_char; [exact H|lia|]); logs; cbn [firstn]; unfold utf16be_form; sc; unfold utf16_units;
    (destruct (Z.ltb_spec (ube x y) 0x10000); [|lia]); cbn [map concat app]; rewrite J1; reflexivity.
Qed.
Lemma utf16le_res : res_imp enc_utf16le utf16le_form.
Proof.
  intros s [ist ibo] d Bs N H; open_res enc_utf16le utf16le_mbtowc H.
  change (0 + 4) with 4 in H; change (0 + 2) with 2 in H; change (-1 - 2 * 0) with (-1) in H; change (-2 - 2 * 0) with (-2) in H.
  destruct s as [|x [|y s]]; [congruence|cbn [length Nat.leb Nat.ltb nth_error] in H; eapply gr_neg; [exact H|lia]|]; cbn [length Nat.leb Nat.ltb nth_error] in H; bytes_of.
  shl_in H. rewrite ?(Z.add_comm x (y * 256)) in H. rewrite ?Z.geb_leb in H. change (y * 256 + x) with (ule x y) in H.
  destruct (ule_le x y) as (J1 & J2); [assumption..|].
  destruct (Z.leb_spec 0xd800 (ule x y)) as [U1|U1]; [destruct (Z.ltb_spec (ule x y) 0xdc00) as [U2|U2]|].
  1: { destruct s as [|z [|w s]]; cbn [length Nat.leb Nat.ltb nth_error] in H; [eapply gr_neg; [exact H|lia]..|]; bytes_of.
   shl_in H. rewrite ?(Z.add_comm z (w * 256)) in H. change (w * 256 + z) with (ule z w) in H.
   destruct (ule_le z w) as (K1 & K2); [assumption..|]. rewrite ?Z.geb_leb in H.
   repeat (cmph H; cbn [negb] in H; try lia; try (eapply gr_neg; [exact H|lia])).
   destruct (units_pair (ule x y) (ule z w)) as (S1 & S2); [lia|lia|]. cbv zeta in S1, S2.
   eapply gr_char; [exact H|lia|]; logs; cbn [firstn]; unfold utf16le_form. rewrite S1, S2; cbn [map concat app]. rewrite J1, K1. reflexivity. }
  all: repeat (cmph H; cbn [negb] in H; try lia; try (eapply gr_neg; [exact H|lia])).
  all: (eapply gr_char; [exact H|lia|]); logs; cbn [firstn]; unfold utf16le_form; sc; unfold utf16_units;
    (destruct (Z.ltb_spec (ule x y) 0x10000); [|lia]); cbn [map concat app]; rewrite J1; reflexivity.
Qed.

Lemma ascii_all : dec_imp enc_ascii ascii_form /\ enc_imp enc_ascii ascii_form /\ res_imp enc_ascii ascii_form.
Proof.
  split; [|split].
  - intros c bs t [ist ibo] H. cases_form ascii_form. apply some_inj in H; subst bs. open_dec enc_ascii ascii_mbtowc. fin.
  - intros c ost C; open_enc ascii_wctomb; unfold ascii_form. csplit c.
  - intros s [ist ibo] d Bs N H; open_res enc_ascii ascii_mbtowc H. destruct s as [|x s]; [congruence|]. bytes_of. cbn [nth_error] in H.
    cmph H; [|eapply gr_neg; [exact H|lia]]. eapply gr_char; [exact H|lia|]. logs. cbn [firstn]. unfold ascii_form, byte in *. repeat (cmp1; try lia). reflexivity.
Qed.
Lemma latin1_all : dec_imp enc_iso8859_1 latin1_form /\ enc_imp enc_iso8859_1 latin1_form /\ res_imp enc_iso8859_1 latin1_form.
Proof.
  split; [|split].
  - intros c bs t [ist ibo] H. cases_form latin1_form. apply some_inj in H; subst bs. open_dec enc_iso8859_1 iso8859_1_mbtowc. fin.
  - intros c ost C; open_enc iso8859_1_wctomb; unfold latin1_form. csplit c.
  - intros s [ist ibo] d Bs N H; open_res enc_iso8859_1 iso8859_1_mbtowc H. destruct s as [|x s]; [congruence|]. bytes_of. cbn [nth_error] in H.
    eapply gr_char; [exact H|lia|]. logs. cbn [firstn]. unfold latin1_form, byte in *. repeat (cmp1; try lia). reflexivity.
Qed.

(** ** Summary *)
Lemma implements_intro : forall f F, dec_imp f F -> enc_imp f F -> res_imp f F -> (forall c bs, F c = Some bs -> bs <> [] /\ bytes bs /\ ucs4 c /\ (length bs <= 4)%nat) -> implements f F.
Proof.
  intros f F D E R P. constructor; auto.
  - intros s i k c i' B N H. destruct (R s i _ B N H) as (_ & A1 & A2). auto.
  - intros s i d B N H. specialize (R s i d B N H). destruct d; cbn in R; tauto.
Qed.
Ltac Zify.zify_post_hook ::= Z.to_euclidean_division_equations.
Ltac w_pos F := intros c bs H; cases_form F; unfold utf16_units, utf8_bytes in *; repeat cmph H; cbn [map concat app] in H; apply some_inj in H; subst bs; unfold be16, le16, be32, le32, ucs4;
  (split; [discriminate|split; [repeat constructor; lia|split; [lia|cbn [length app]; repeat constructor]]]).
Lemma utf8_pos : forall c bs, utf8_form c = Some bs -> bs <> [] /\ bytes bs /\ ucs4 c /\ (length bs <= 4)%nat.
Proof. w_pos utf8_form. Qed.
Lemma utf16be_pos : forall c bs, utf16be_form c = Some bs -> bs <> [] /\ bytes bs /\ ucs4 c /\ (length bs <= 4)%nat.
Proof. w_pos utf16be_form. Qed.
Lemma utf16le_pos : forall c bs, utf16le_form c = Some bs -> bs <> [] /\ bytes bs /\ ucs4 c /\ (length bs <= 4)%nat.
Proof. w_pos utf16le_form. Qed.
Lemma utf32be_pos : forall c bs, utf32be_form c = Some bs -> bs <> [] /\ bytes bs /\ ucs4 c /\ (length bs <= 4)%nat.
Proof. w_pos utf32be_form. Qed.
Lemma utf32le_pos : forall c bs, utf32le_form c = Some bs -> bs <> [] /\ bytes bs /\ ucs4 c /\ (length bs <= 4)%nat.
Proof. w_pos utf32le_form. Qed.
Lemma ucs2be_pos : forall c bs, ucs2be_form c = Some bs -> bs <> [] /\ bytes bs /\ ucs4 c /\ (length bs <= 4)%nat.
Proof. w_pos ucs2be_form. Qed.
Lemma ucs2le_pos : forall c bs, ucs2le_form c = Some bs -> bs <> [] /\ bytes bs /\ ucs4 c /\ (length bs <= 4)%nat.
Proof. w_pos ucs2le_form. Qed.
Lemma ucs4be_pos : forall c bs, ucs4be_form c = Some bs -> bs <> [] /\ bytes bs /\ ucs4 c /\ (length bs <= 4)%nat.
Proof. w_pos ucs4be_form. Qed.
Lemma ucs4le_pos : forall c bs, ucs4le_form c = Some bs -> bs <> [] /\ bytes bs /\ ucs4 c /\ (length bs <= 4)%nat.
Proof. w_pos ucs4le_form. Qed.
Lemma ascii_pos : forall c bs, ascii_form c = Some bs -> bs <> [] /\ bytes bs /\ ucs4 c /\ (length bs <= 4)%nat.
Proof. w_pos ascii_form. Qed.
Lemma latin1_pos : forall c bs, latin1_form c = Some bs -> bs <> [] /\ bytes bs /\ ucs4 c /\ (length bs <= 4)%nat.
Proof. w_pos latin1_form. Qed.
Lemma utf8_implements : implements enc_utf8 utf8_form.
Proof. apply implements_intro; [exact utf8_dec|exact utf8_enc|exact utf8_res|exact utf8_pos]. Qed.
Lemma utf16be_implements : implements enc_utf16be utf16be_form.
Proof. apply implements_intro; [exact utf16be_dec|exact utf16be_enc|exact utf16be_res|exact utf16be_pos]. Qed.
Lemma utf16le_implements : implements enc_utf16le utf16le_form.
Proof. apply implements_intro; [exact utf16le_dec|exact utf16le_enc|exact utf16le_res|exact utf16le_pos]. Qed.
Lemma utf32be_implements : implements enc_utf32be utf32be_form.
Proof. apply implements_intro; [exact utf32be_dec|exact utf32be_enc|exact utf32be_res|exact utf32be_pos]. Qed.
Lemma utf32le_implements : implements enc_utf32le utf32le_form.
Proof. apply implements_intro; [exact utf32le_dec|exact utf32le_enc|exact utf32le_res|exact utf32le_pos]. Qed.
Lemma ucs2be_implements : implements enc_ucs2be ucs2be_form.
Proof. apply implements_intro; [exact ucs2be_dec|exact ucs2be_enc|exact ucs2be_res|exact ucs2be_pos]. Qed.
Lemma ucs2le_implements : implements enc_ucs2le ucs2le_form.
Proof. apply implements_intro; [exact ucs2le_dec|exact ucs2le_enc|exact ucs2le_res|exact ucs2le_pos]. Qed.
Lemma ucs2internal_implements : implements enc_ucs2internal ucs2le_form.
Proof. apply implements_intro; [exact ucs2internal_dec|exact ucs2internal_enc|exact ucs2internal_res|exact ucs2le_pos]. Qed.
Lemma ucs2swapped_implements : implements enc_ucs2swapped ucs2be_form.
Proof. apply implements_intro; [exact ucs2swapped_dec|exact ucs2swapped_enc|exact ucs2swapped_res|exact ucs2be_pos]. Qed.
Lemma ucs4be_implements : implements enc_ucs4be ucs4be_form.
Proof. apply implements_intro; [exact ucs4be_dec|exact ucs4be_enc|exact ucs4be_res|exact ucs4be_pos]. Qed.
Lemma ucs4le_implements : implements enc_ucs4le ucs4le_form.
Proof. apply implements_intro; [exact ucs4le_dec|exact ucs4le_enc|exact ucs4le_res|exact ucs4le_pos]. Qed.
Lemma ucs4internal_implements : implements enc_ucs4internal ucs4le_form.
Proof. apply implements_intro; [exact ucs4internal_dec|exact ucs4internal_enc|exact ucs4internal_res|exact ucs4le_pos]. Qed.
Lemma ucs4swapped_implements : implements enc_ucs4swapped ucs4be_form.
Proof. apply implements_intro; [exact ucs4swapped_dec|exact ucs4swapped_enc|exact ucs4swapped_res|exact ucs4be_pos]. Qed.
Lemma ascii_implements : implements enc_ascii ascii_form.
Proof. apply implements_intro; [apply ascii_all..|exact ascii_pos]. Qed.
Lemma latin1_implements : implements enc_iso8859_1 latin1_form.
Proof. apply implements_intro; [apply latin1_all..|exact latin1_pos]. Qed.
