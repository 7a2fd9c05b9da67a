(** GB18030 (2022 edition) reads back what was written. *)
From Coq Require Import ZArith List Bool Lia.
From Verif Require Import Base Loop Contract LoopLib Reflect Sx Rng EncLib DecLib Spec SpecProps Leaf CharLib UniSpec Round DLeaf SbLib Unroll RtLib Ok_gb18030 Charmap Maps_ces_gbk Chk_ces_gbk.
From Verif Require Import Tab_gb Conv_uni Conv_sb Conv_set_ja Conv_set_zh Conv_set_ko Conv_cjk Encodings.
Import ListNotations.
Open Scope Z_scope.

(** An encoding without state: it is enough to look at one character at a time.  [n]: whether a character may have no bytes. *)
Definition round1 (n : bool) (f : funcs) (c : Z) : bool :=
  match emit f c 0 with
  | Some ([], _) => false
  | Some (bs, o) =>
    if o =? 0 then match dec f bs (0, 0) with Some (DChar k d (ist, ibo)) => if Nat.eqb k (length bs) then (if d =? c then (if ist =? 0 then ibo =? 0 else false) else false) else false | _ => false end
    else false
  | None => n
  end.
Lemma round1_use : forall n f c bs o, round1 n f c = true -> emit f c 0 = Some (bs, o) -> o = 0 /\ bs <> [] /\ dec f bs (0, 0) = Some (DChar (length bs) c (0, 0)).
Proof.
  intros n f c bs o H E. unfold round1 in H. rewrite E in H. destruct bs as [|b bs]; [discriminate|]. destruct (Z.eqb_spec o 0); [|discriminate].
  destruct (dec f (b :: bs) (0, 0)) as [[k d [ist ibo]| |]|]; try discriminate. destruct (Nat.eqb_spec k (length (b :: bs))); [|discriminate].
  destruct (Z.eqb_spec d c); [|discriminate]. destruct (Z.eqb_spec ist 0); [|discriminate]. apply Z.eqb_eq in H. subst. repeat split. discriminate.
Qed.

(** ** Characters of GBK: as in the encoding GBK, whose table is known. *)
Definition in_gbk (c : Z) : bool := match gbk_wctomb c 2 with Ok (r, [(S O, b); (O, a)]) => r =? 2 | _ => false end.
Lemma gbk_cjk : iv_all (Z.to_nat 0x51a6) 0x4e00 in_gbk = true.
Proof. vm_cast_no_check (eq_refl true). Qed.
Lemma gbk_room : forall c, gbk_wctomb c 16 = gbk_wctomb c 2.
Proof. intros c. reflexivity. Qed.
Lemma gbk_round : forall c, ucs4 c -> 0x80 <= c -> in_gbk c = true -> round1 false enc_gb18030_2022 c = true.
Proof.
  intros c U L H. unfold in_gbk in H. destruct (gbk_wctomb c 2) as [[r l]| | |] eqn:G; try discriminate.
  destruct l as [|[[|[|]] y] [|[[|] x] [|]]]; try discriminate. apply Z.eqb_eq in H. subst r.
  assert (A : ascii_wctomb c 16 = Ok (-1, [])). { unfold ascii_wctomb. destruct (Z.ltb_spec c 0x80); [lia|reflexivity]. }
  assert (E1 : emit enc_gb18030_2022 c 0 = Some ([x; y], 0)).
  { unfold emit. change (f_wc enc_gb18030_2022) with (wc0 gb18030_2022_wctomb). unfold wc0, gb18030_2022_wctomb. rewrite A, gbk_room, G. reflexivity. }
  assert (E2 : emit enc_ces_gbk c 0 = Some ([x; y], 0)).
  { unfold emit. change (f_wc enc_ces_gbk) with (wc0 ces_gbk_wctomb). unfold wc0, ces_gbk_wctomb. rewrite A, G. reflexivity. }
  apply (en_iff _ _ enc_map_ces_gbk c [x; y] 0 U) in E2.
  assert (S : stands_for map_ces_gbk c [x; y]).
  { unfold maps_to, maps_tob in E2. unfold stands_for. destruct (char_of map_ces_gbk [x; y]) as [d|]; [|discriminate].
    change (xorb (d =? c) false = true) in E2. rewrite xorb_false_r in E2. apply Z.eqb_eq in E2. now subst. }
  pose proof (de_char _ _ dec_map_ces_gbk c [x; y] [] (0, 0) S (Forall_nil _) ltac:(cbn; unfold LIM; lia)) as D. cbn [app length] in D.
  destruct (de_pos _ _ dec_map_ces_gbk c [x; y] S) as (_ & B & _). pose proof (Forall_inv B) as Bx. cbv beta in Bx. clear B E2 S.
  assert (D' : dec enc_gb18030_2022 [x; y] (0, 0) = Some (DChar 2 c (0, 0))).
  { unfold dec in D |- *. cbn [fst snd length] in D |- *. change (f_mb enc_ces_gbk) with (mb0 ces_gbk_mbtowc) in D. change (f_mb enc_gb18030_2022) with (mb0 gb18030_2022_mbtowc).
    unfold mb0 in *. unfold ces_gbk_mbtowc in D. unfold gb18030_2022_mbtowc. cbn [rd nth_error] in D |- *. destruct (Z.ltb_spec x 0x80).
    - exfalso. revert D. unfold ascii_mbtowc. cbn [rd nth_error]. destruct (Z.ltb_spec x 0x80); [|lia]. cbn. discriminate.
    - revert D. case_eq (gbk_mbtowc [x; y] 2); [intros [q o] Q| | |]; cbn [bind]; match goal with |- context [if ?g then _ else _] => destruct g eqn:?; try discriminate | _ => idtac end; cbn [Nat.ltb Nat.leb]; try discriminate.
      all: cbn [bind]; intros D. destruct (Z.eqb_spec q (-1)); [subst q; cbn in D; discriminate|]. cbn [negb]. exact D. }
  unfold round1. rewrite E1, D'. cbn [Z.eqb length Nat.eqb]. now rewrite Z.eqb_refl.
Qed.

(** ** The large gaps between the characters of GBK, filled in order. *)
Fixpoint find_range (T : tab) (fuel : nat) (lo hi k1 k2 : Z) : option Z :=
  match fuel with O => None | S fuel =>
  if k1 <? k2 then
    let k := (k1 + k2) / 2 in
    match tlookup T (2 * k + 1) with
    | None => None
    | Some x => if hi <=? x then find_range T fuel lo hi k1 k else if x <? lo then
      match tlookup T (2 * k + 2) with None => None | Some y => if y <=? lo then find_range T fuel lo hi (k + 1) k2 else None end else None
    end
  else tlookup gb18030uni_ranges k1
  end.
Lemma enc_range : forall fuel lo hi d c k1 k2 r, find_range gb18030uni_uni2charset_ranges fuel lo hi k1 k2 = Some d -> lo <= c <= hi ->
  gb18030_2022_uni_wctomb_loop fuel c k1 k2 r = gb18030_2022_uni_wctomb_j2 (u32 (c - d)) r.
Proof.
  induction fuel as [|fuel IH]; intros lo hi d c k1 k2 r F R; [discriminate|]. cbn [find_range] in F. cbn [gb18030_2022_uni_wctomb_loop]. cbv zeta in *.
  destruct (k1 <? k2).
  - unfold tget. destruct (tlookup gb18030uni_uni2charset_ranges (2 * ((k1 + k2) / 2) + 1)) as [x|]; [|discriminate].
    destruct (Z.leb_spec hi x). { destruct (Z.leb_spec c x); [|lia]. now apply (IH lo hi). }
    destruct (Z.ltb_spec x lo); [|discriminate]. destruct (Z.leb_spec c x); [lia|].
    destruct (tlookup gb18030uni_uni2charset_ranges (2 * ((k1 + k2) / 2) + 2)) as [y|]; [|discriminate]. destruct (Z.leb_spec y lo); [|discriminate].
    rewrite Z.geb_leb. destruct (Z.leb_spec y c); [|lia]. now apply (IH lo hi).
  - unfold tget. now rewrite F.
Qed.
Lemma dec_range : forall fuel lo hi d c k1 k2 r, find_range gb18030uni_charset2uni_ranges fuel lo hi k1 k2 = Some d -> lo <= c <= hi ->
  gb18030_2022_uni_mbtowc_loop fuel c k1 k2 r = Ok (4, Some (c + d)).
Proof.
  induction fuel as [|fuel IH]; intros lo hi d c k1 k2 r F R; [discriminate|]. cbn [find_range] in F. cbn [gb18030_2022_uni_mbtowc_loop]. cbv zeta in *.
  destruct (k1 <? k2).
  - unfold tget. destruct (tlookup gb18030uni_charset2uni_ranges (2 * ((k1 + k2) / 2) + 1)) as [x|]; [|discriminate].
    destruct (Z.leb_spec hi x). { destruct (Z.leb_spec c x); [|lia]. now apply (IH lo hi). }
    destruct (Z.ltb_spec x lo); [|discriminate]. destruct (Z.leb_spec c x); [lia|].
    destruct (tlookup gb18030uni_charset2uni_ranges (2 * ((k1 + k2) / 2) + 2)) as [y|]; [|discriminate]. destruct (Z.leb_spec y lo); [|discriminate].
    rewrite Z.geb_leb. destruct (Z.leb_spec y c); [|lia]. now apply (IH lo hi).
  - unfold tget. now rewrite F.
Qed.
Ltac sx_call m ::= outside.
Lemma gbk_out : forall c, 0x80 <= c < 0x110000 -> covered ivs_ces_gbk c = false -> holds (gbk_wctomb c 16) (fun x => x = (-1, [])).
Proof. intros c U K. sx. all: first [outside | reflexivity]. Qed.
Definition ivs_ext : ranges := [(0x1f9, 0x1fa); (0x1e3f, 0x1e40); (0x20ac, 0x20ad); (0x2e80, 0x2ed0); (0x2ff0, 0x3000); (0x303e, 0x303f); (0x3440, 0x3478); (0x359e, 0x359f); (0x3608, 0x3620); (0x3918, 0x3919); (0x396e, 0x396f); (0x39c8, 0x39e0); (0x3a73, 0x3a74); (0x3b4e, 0x3b4f); (0x3c6e, 0x3c6f); (0x3ce0, 0x3ce1); (0x4056, 0x4057); (0x415f, 0x4160); (0x4337, 0x4338); (0x43a8, 0x43e0); (0x44d6, 0x44d7); (0x4648, 0x4668); (0x4720, 0x4730); (0x4778, 0x4790); (0x4940, 0x49b8); (0x4c70, 0x4ca8); (0x4d10, 0x4d20); (0x4dae, 0x4daf); (0x9fb4, 0x9fbc); (0xfe10, 0xfe1a)].
Lemma ext_out : forall c, 0x80 <= c < 0x110000 -> covered ivs_ext c = false -> holds (gb18030ext_wctomb c 16) (fun x => x = (-1, [])).
Proof. intros c U K. sx. all: first [outside | reflexivity]. Qed.
Definition digits (i : Z) : list Z := [i / 10 / 126 / 10 + 0x81; i / 10 / 126 mod 10 + 0x30; i / 10 mod 126 + 0x81; i mod 10 + 0x30].
Definition apart (lo hi : Z) (r : Z * Z) : bool := (hi <? fst r) || (snd r <=? lo).
Definition gap_ok (g : Z * Z) : bool := let (lo, hi) := g in
  (0x80 <=? lo) && (hi <=? 0xffff) && forallb (apart lo hi) ((0xe000, 0xe865) :: ivs_ces_gbk ++ ivs_ext) &&
  match find_range gb18030uni_uni2charset_ranges 64 lo hi 0 0xcd with
  | Some d => (0 <=? lo - d) && (hi - d <=? 0x99fb) && forallb (apart (lo - d) (hi - d)) [(0x1d21, 0x1d22); (0x4a71, 0x4a79); (0x98a4, 0x98ae)] &&
    match find_range gb18030uni_charset2uni_ranges 64 (lo - d) (hi - d) 0 0xcd with Some e => d =? e | None => false end
  | None => false
  end.
Lemma apart_out : forall lo hi c l, forallb (apart lo hi) l = true -> lo <= c <= hi -> covered l c = false.
Proof.
  intros lo hi c l H R. induction l as [|r l IH]; [reflexivity|]. cbn [forallb] in H. apply andb_prop in H. destruct H as (A & B). unfold covered in *. cbn [existsb]. rewrite (IH B).
  unfold apart in A. lia.
Qed.
Lemma gap_enc : forall c d, 0x80 <= c <= 0xffff -> covered ((0xe000, 0xe865) :: ivs_ces_gbk ++ ivs_ext) c = false -> 0 <= c - d <= 0x99fb ->
  (forall r, gb18030_2022_uni_wctomb_loop 64 c 0 0xcd r = gb18030_2022_uni_wctomb_j2 (u32 (c - d)) r) -> emit enc_gb18030_2022 c 0 = Some (digits (c - d), 0).
Proof.
  intros c d U K I L. unfold covered in K. cbn [existsb fst snd] in K. apply orb_false_elim in K. destruct K as (K0 & K). rewrite existsb_app in K. apply orb_false_elim in K. destruct K as (K1 & K2).
  pose proof (gbk_out c ltac:(lia) K1) as G. pose proof (ext_out c ltac:(lia) K2) as X. clear K1 K2.
  unfold emit. change (f_wc enc_gb18030_2022) with (wc0 gb18030_2022_wctomb). unfold wc0, gb18030_2022_wctomb.
  assert (A : ascii_wctomb c 16 = Ok (-1, [])). { unfold ascii_wctomb. destruct (Z.ltb_spec c 0x80); [lia|reflexivity]. } rewrite A. clear A.
  destruct (gbk_wctomb c 16) as [g| | |]; cbn in G; try contradiction. subst g. destruct (gb18030ext_wctomb c 16) as [x| | |]; cbn in X; try contradiction. subst x.
  cbn [bind Z.eqb negb lapp lshift map app]. unfold gb18030_2022_wctomb_j, gb18030_2022_uni_wctomb, gb18030_2022_uni_wctomb_j. rewrite !Z.geb_leb.
  repeat (match goal with
    | |- context [if ?a <=? ?b then _ else _] => destruct (Z.leb_spec a b); try (exfalso; clear L; lia)
    | |- context [if ?a =? ?b then _ else _] => destruct (Z.eqb_spec a b); try (exfalso; clear L; lia)
    end; cbn [Nat.leb]; cbv beta iota zeta).
  all: rewrite L; unfold gb18030_2022_uni_wctomb_j2, u32, u8; cbv zeta; rewrite (Z.mod_small (c - d)) by lia; unfold digits.
  all: rewrite (Z.mod_small _ 256); [reflexivity|]; Z.div_mod_to_equations; lia.
Qed.
Lemma gap_dec : forall a b c d lo hi e, 0x81 <= a <= 0x84 -> 0x30 <= b <= 0x39 -> 0x81 <= c <= 0xfe -> 0x30 <= d <= 0x39 ->
  let i := (((a - 0x81) * 10 + (b - 0x30)) * 126 + (c - 0x81)) * 10 + (d - 0x30) in lo <= i <= hi -> 0 <= lo -> hi <= 0x99fb ->
  forallb (apart lo hi) [(0x1d21, 0x1d22); (0x4a71, 0x4a79); (0x98a4, 0x98ae)] = true ->
  find_range gb18030uni_charset2uni_ranges 64 lo hi 0 0xcd = Some e -> dec enc_gb18030_2022 [a; b; c; d] (0, 0) = Some (DChar 4 (i + e) (0, 0)).
Proof.
  intros a b c d lo hi e A B C D i I L H P F.
  assert (W : gb18030_2022_uni_mbtowc [a; b; c; d] 4 = Ok (4, Some (i + e))).
  { unfold gb18030_2022_uni_mbtowc. cbn [rd nth_error Nat.leb]. rewrite !Z.geb_leb. cbn [forallb] in P. unfold apart in P. cbn [fst snd] in P.
    fold i. cbv zeta. pose proof (fun p => dec_range 64 lo hi e i 0 0xcd p F I) as R. clear F.
    change ((((a - 0x81) * 0xa + (b - 0x30)) * 0x7e + (c - 0x81)) * 0xa + (d - 0x30)) with i. clearbody i.
    repeat (match goal with
    | |- context [if ?x <=? ?y then _ else _] => destruct (Z.leb_spec x y); try (exfalso; clear R; lia)
    | |- context [if ?x =? ?y then _ else _] => destruct (Z.eqb_spec x y); try (exfalso; clear R; lia)
    end; cbv beta iota zeta). all: apply R. }
  assert (G : holds (gbk_mbtowc [a; b; c; d] 4) (fun x => fst x = -1)). { clear F W. unfold gbk_mbtowc. sx. all: cbn [fst]; lia. }
  assert (X : holds (gb18030_2022_ext_mbtowc [a; b; c; d] 4) (fun x => fst x = -1)). { clear F W G. unfold gb18030_2022_ext_mbtowc. sx. all: cbn [fst]; lia. }
  unfold dec. cbn [fst snd length]. change (f_mb enc_gb18030_2022) with (mb0 gb18030_2022_mbtowc). unfold mb0, gb18030_2022_mbtowc. cbn [rd nth_error].
  destruct (Z.ltb_spec a 0x80); [lia|]. destruct (gbk_mbtowc [a; b; c; d] 4) as [[g og]| | |]; cbn in G; try contradiction. subst g.
  destruct (gb18030_2022_ext_mbtowc [a; b; c; d] 4) as [[x ox]| | |]; cbn in X; try contradiction. subst x. cbn [bind Z.eqb negb]. rewrite W. reflexivity.
Qed.
Lemma gap_round : forall lo hi c, gap_ok (lo, hi) = true -> lo <= c <= hi -> round1 false enc_gb18030_2022 c = true.
Proof.
  intros lo hi c G R. unfold gap_ok in G. apply andb_prop in G. destruct G as (G & F). apply andb_prop in G. destruct G as (G & K). apply (apart_out lo hi c _) in K; [|exact R].
  destruct (find_range gb18030uni_uni2charset_ranges 64 lo hi 0 205) as [d|] eqn:FE; [|discriminate]. apply andb_prop in F. destruct F as (F & FD). apply andb_prop in F. destruct F as (F & P).
  destruct (find_range gb18030uni_charset2uni_ranges 64 (lo - d) (hi - d) 0 205) as [e|] eqn:FD'; [|discriminate]. apply Z.eqb_eq in FD. subst e.
  unfold round1. rewrite (gap_enc c d); [| lia | exact K | lia | intros r; exact (enc_range 64 lo hi d c 0 205 r FE R)]. unfold digits. set (i := c - d) in *.
  assert (I : 0 <= i <= 0x99fb) by (unfold i; lia).
  assert (E : exists q1 q2 q3 r1 r2 r3, i / 10 = q1 /\ i / 10 / 126 = q2 /\ i / 10 / 126 / 10 = q3 /\ i mod 10 = r1 /\ i / 10 mod 126 = r2 /\ i / 10 / 126 mod 10 = r3 /\
    i = 10 * q1 + r1 /\ q1 = 126 * q2 + r2 /\ q2 = 10 * q3 + r3 /\ 0 <= r1 < 10 /\ 0 <= r2 < 126 /\ 0 <= r3 < 10).
  { do 6 eexists. repeat (split; [reflexivity|]).
    split; [apply Z.div_mod; lia|]. split; [apply Z.div_mod; lia|]. split; [apply Z.div_mod; lia|]. repeat split; apply Z.mod_pos_bound; lia. }
  destruct E as (q1 & q2 & q3 & r1 & r2 & r3 & E1 & E2 & E3 & E4 & E5 & E6 & E7 & E8 & E9 & R1 & R2 & R3). rewrite E3, E4, E5, E6. cbn [Z.eqb].
  pose proof (gap_dec (q3 + 0x81) (r3 + 0x30) (r2 + 0x81) (r1 + 0x30) (lo - d) (hi - d) d) as D. cbv zeta in D.
  replace ((((q3 + 129 - 129) * 10 + (r3 + 48 - 48)) * 126 + (r2 + 129 - 129)) * 10 + (r1 + 48 - 48)) with i in D by lia.
  rewrite D; [| lia | lia | lia | lia | unfold i; lia | lia | lia | exact P | exact FD']. cbn [length Nat.eqb]. replace (i + d) with c by (unfold i; lia). now rewrite Z.eqb_refl.
Qed.
Definition gaps : list (Z * Z) := [(0x460, 0x1e3e); (0x1e40, 0x1fff); (0x2650, 0x2e7f); (0x2ed0, 0x2fef); (0x33e0, 0x343f); (0x3478, 0x359d); (0x359f, 0x3607); (0x3620, 0x3917); (0x3919, 0x396d); (0x396f, 0x39c7); (0x39e0, 0x3a72); (0x3a74, 0x3b4d); (0x3b4f, 0x3c6d); (0x3c6f, 0x3cdf); (0x3ce1, 0x4055); (0x4057, 0x415e); (0x4160, 0x4336); (0x4338, 0x43a7); (0x43e0, 0x44d5); (0x44d7, 0x4647); (0x4668, 0x471f); (0x4730, 0x4777); (0x4790, 0x493f); (0x49b8, 0x4c6f); (0x4ca8, 0x4d0f); (0x4d20, 0x4dad); (0x4daf, 0x4dff); (0x9fbc, 0xd7ff); (0xe865, 0xf8ff); (0xfa30, 0xfdff)].
Lemma gaps_ok : forallb gap_ok gaps = true.
Proof. vm_cast_no_check (eq_refl true). Qed.
(** ** What is left, one by one. *)
Definition rest : list (Z * Z) := [(0x0, 0x45f); (0x1e3f, 0x1e3f); (0x2000, 0x264f); (0x2e80, 0x2ecf); (0x2ff0, 0x33df); (0x3440, 0x3477); (0x359e, 0x359e); (0x3608, 0x361f); (0x3918, 0x3918); (0x396e, 0x396e); (0x39c8, 0x39df); (0x3a73, 0x3a73); (0x3b4e, 0x3b4e); (0x3c6e, 0x3c6e); (0x3ce0, 0x3ce0); (0x4056, 0x4056); (0x415f, 0x415f); (0x4337, 0x4337); (0x43a8, 0x43df); (0x44d6, 0x44d6); (0x4648, 0x4667); (0x4720, 0x472f); (0x4778, 0x478f); (0x4940, 0x49b7); (0x4c70, 0x4ca7); (0x4d10, 0x4d1f); (0x4dae, 0x4dae); (0x9fa6, 0x9fbb); (0xe000, 0xe864); (0xf900, 0xfa2f); (0xfe00, 0xffff)].
Lemma rest_ok : forallb (fun r => iv_all (Z.to_nat (snd r - fst r + 1)) (fst r) (round1 false enc_gb18030_2022)) rest = true.
Proof. vm_cast_no_check (eq_refl true). Qed.
(** ** Together they are the whole plane. *)
Fixpoint tiled (x : Z) (l : list (Z * Z)) (stop : Z) : bool := match l with [] => x =? stop | r :: l => (fst r =? x) && (fst r <=? snd r) && tiled (snd r + 1) l stop end.
Lemma tiled_in : forall l x stop c, tiled x l stop = true -> x <= c < stop -> exists r, In r l /\ fst r <= c <= snd r.
Proof.
  induction l as [|r l IH]; intros x stop c T R; cbn [tiled] in T; [lia|]. apply andb_prop in T. destruct T as (T & T'). destruct (Z.leb_spec c (snd r)).
  - exists r. split; [now left|lia].
  - destruct (IH _ _ c T' ltac:(lia)) as (q & I & Q). exists q. split; [now right|exact Q].
Qed.
Fixpoint insert (r : Z * Z) (l : list (Z * Z)) : list (Z * Z) := match l with [] => [r] | q :: l' => if fst r <=? fst q then r :: l else q :: insert r l' end.
Definition tiles : list (Z * Z) := fold_right insert [] (((0x4e00, 0x9fa5) :: (0xd800, 0xdfff) :: gaps) ++ rest).
Lemma insert_in : forall r l q, In q (insert r l) -> q = r \/ In q l.
Proof. induction l as [|p l IH]; intros q H; cbn [insert] in H. { cbn [In] in H. left. intuition congruence. } revert H. destruct (fst r <=? fst p); cbn [In]; intros [H|H]; auto. destruct (IH q H); auto. Qed.
Lemma sorted_in : forall l q, In q (fold_right insert [] l) -> In q l.
Proof. induction l as [|p l IH]; intros q H; cbn [fold_right] in H; [contradiction|]. destruct (insert_in _ _ _ H); [left; congruence|right; auto]. Qed.
Lemma tiles_ok : tiled 0 tiles 0x10000 = true.
Proof. vm_cast_no_check (eq_refl true). Qed.
Lemma gb_bmp : forall c, scalar c = true -> c < 0x10000 -> round1 false enc_gb18030_2022 c = true.
Proof.
  intros c S L. unfold scalar in S. destruct (tiled_in _ _ _ c tiles_ok ltac:(lia)) as (r & I & R). apply sorted_in in I. apply in_app_or in I. destruct I as [I|I]; [cbn [In] in I; destruct I as [I|[I|I]]|].
  - subst r. cbn [fst snd] in R. apply gbk_round; [unfold ucs4; lia|lia|]. apply (iv_all_sound _ _ _ gbk_cjk). rewrite Z2Nat.id; lia.
  - subst r. cbn [fst snd] in R. lia.
  - destruct r as (lo, hi). cbn [fst snd] in R. exact (gap_round lo hi c (proj1 (forallb_forall _ _) gaps_ok _ I) R).
  - pose proof (proj1 (forallb_forall _ _) rest_ok _ I) as H. cbv beta in H. apply (iv_all_sound _ _ _ H). rewrite Z2Nat.id; lia.
Qed.
(** The other planes: the bytes are the digits of the number of the character. *)
Ltac sx_call m ::= outside.
Lemma gb_supp_enc : forall c, 0x10000 <= c < 0x110000 -> let i := c - 0x10000 in
  emit enc_gb18030_2022 c 0 = Some ([i / 10 / 126 / 10 + 0x90; i / 10 / 126 mod 10 + 0x30; i / 10 mod 126 + 0x81; i mod 10 + 0x30], 0).
Proof.
  intros c U i. unfold emit. change (f_wc enc_gb18030_2022) with (wc0 gb18030_2022_wctomb).
  assert (H : holds (gb18030_2022_wctomb c 16) (fun r => r = (4, wr (wr (wr (wr [] 3%nat (i mod 10 + 0x30)) 2%nat (i / 10 mod 126 + 0x81)) 1%nat (i / 10 / 126 mod 10 + 0x30)) 0%nat (i / 10 / 126 / 10 + 0x90)))).
  { unfold i. unfold gb18030_2022_wctomb. sx. all: reflexivity. }
  unfold wc0. destruct (gb18030_2022_wctomb c 16) as [r| | |]; cbn in H; try contradiction. subst r. reflexivity.
Qed.
Lemma gb_supp_dec : forall a b c d, 0x90 <= a <= 0xe3 -> 0x30 <= b <= 0x39 -> 0x81 <= c <= 0xfe -> 0x30 <= d <= 0x39 ->
  (((a - 0x90) * 10 + (b - 0x30)) * 126 + (c - 0x81)) * 10 + (d - 0x30) < 0x100000 ->
  dec enc_gb18030_2022 [a; b; c; d] (0, 0) = Some (DChar 4 (0x10000 + ((((a - 0x90) * 10 + (b - 0x30)) * 126 + (c - 0x81)) * 10 + (d - 0x30))) (0, 0)).
Proof.
  intros a b c d A B C D L. apply (dec_by _ _ _ 4 _ (0, 0)). cbn [length fst snd]. change (f_mb enc_gb18030_2022) with (mb0 gb18030_2022_mbtowc). unfold mb0.
  unfold gb18030_2022_mbtowc. sx. all: cbv [oset]; first [reflexivity | exfalso; lia].
Qed.
Lemma gb_supp : forall c, 0x10000 <= c < 0x110000 -> round1 false enc_gb18030_2022 c = true.
Proof.
  intros c U. unfold round1. rewrite (gb_supp_enc c U). set (i := c - 0x10000) in *. assert (I : 0 <= i < 0x100000) by (unfold i; lia).
  assert (E : exists q1 q2 q3 r1 r2 r3, i / 10 = q1 /\ i / 10 / 126 = q2 /\ i / 10 / 126 / 10 = q3 /\ i mod 10 = r1 /\ i / 10 mod 126 = r2 /\ i / 10 / 126 mod 10 = r3 /\
    i = 10 * q1 + r1 /\ q1 = 126 * q2 + r2 /\ q2 = 10 * q3 + r3 /\ 0 <= r1 < 10 /\ 0 <= r2 < 126 /\ 0 <= r3 < 10).
  { do 6 eexists. repeat (split; [reflexivity|]).
    split; [apply Z.div_mod; lia|]. split; [apply Z.div_mod; lia|]. split; [apply Z.div_mod; lia|]. repeat split; apply Z.mod_pos_bound; lia. }
  destruct E as (q1 & q2 & q3 & r1 & r2 & r3 & E1 & E2 & E3 & E4 & E5 & E6 & E7 & E8 & E9 & R1 & R2 & R3). rewrite E3, E4, E5, E6. cbn [Z.eqb].
  rewrite gb_supp_dec by lia. cbn [length Nat.eqb Z.eqb]. match goal with |- (if ?x =? c then _ else _) = true => replace x with c by (unfold i in *; lia) end. now rewrite Z.eqb_refl.
Qed.
Lemma gb_all : forall c, scalar c = true -> round1 false enc_gb18030_2022 c = true.
Proof. intros c S. destruct (Z.ltb_spec c 0x10000); [now apply gb_bmp|]. apply gb_supp. unfold scalar in S. lia. Qed.
Lemma gb18030_expresses : expresses enc_gb18030_2022 (fun c => scalar c = true) (fun o => o = 0).
Proof.
  split; [reflexivity|]. intros c o S ->. pose proof (gb_all c S) as R. destruct (emit enc_gb18030_2022 c 0) as [[bs o]|] eqn:E.
  - exists bs, o. split; [reflexivity|]. now destruct (round1_use _ _ _ _ _ R E).
  - unfold round1 in R. rewrite E in R. discriminate.
Qed.
Lemma gb18030_carries : carries enc_gb18030_2022 (fun c => scalar c = true).
Proof.
  apply (step_carries _ _ (fun o i => o = 0 /\ i = (0, 0))). constructor.
  - split; reflexivity.
  - intros c o i S (-> & ->) _ E. destruct (proj2 gb18030_expresses c 0 S eq_refl) as (bs & o' & E' & _). congruence.
  - intros c o bs o' i t u skip S (-> & ->) E B L. destruct (round1_use _ _ c bs o' (gb_all c S) E) as (-> & N & D).
    exists (0, 0). split; [split; reflexivity|]. unfold bytes in B. apply Forall_app in B. destruct B as (B1 & B2).
    pose proof (s_char _ _ (proj2 dec_gb18030_2022) bs t (0, 0) _ _ _ (d_init _ _ _ _ _ (proj1 dec_gb18030_2022)) B1 B2 L N D) as D'. eapply takes_char; [|exact D'|].
    + destruct bs; [congruence|discriminate].
    + rewrite skipn_app, skipn_all, Nat.sub_diag. apply takes_none.
  - intros o i u skip (-> & ->). exists (0, 0). split; [constructor|reflexivity].
Qed.
