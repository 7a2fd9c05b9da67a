(** Contracts of the single-byte encodings with combining characters: CP1255, CP1258, TCVN. *)
From Coq Require Import ZArith List Bool Lia.
From Verif Require Import Base Loop Contract LoopLib Reflect Sx Conv_uni Conv_sb Encodings Unroll.
Import ListNotations.
Open Scope Z_scope.

(** Decoder states met from stl by one call on one byte. *)
Definition reach1 (f : list Z -> nat -> Z -> Z -> res (Z * option Z * Z * Z)) (stl : list Z) : list Z :=
  fold_left (fun acc ist => fold_left (fun acc b =>
    match f [Z.of_nat b] 1%nat ist 0 with Ok (_, _, ist', _) => if mem acc ist' then acc else acc ++ [ist'] | _ => acc end)
    (seq 0 256) acc) stl stl.
Definition cp1255_sts : list Z := Eval vm_compute in reach1 cp1255_mbtowc (reach1 cp1255_mbtowc [0]).
Definition cp1258_sts : list Z := Eval vm_compute in reach1 cp1258_mbtowc (reach1 cp1258_mbtowc [0]).
Definition tcvn_sts : list Z := Eval vm_compute in reach1 tcvn_mbtowc (reach1 tcvn_mbtowc [0]).
Definition nz (ist : Z) : bool := negb (ist =? 0).

Lemma dec_cp1255 : dec_ok enc_cp1255 1 (dfin (mem cp1255_sts)) (dpend nz) ucs4 /\ dec_stable enc_cp1255 (dfin (mem cp1255_sts)).
Proof. apply (dec_by_check enc_cp1255 1 cp1255_sts nz 0); [reflexivity|reflexivity|intros t m; vm_cast_no_check (eq_refl true)|reflexivity]. Qed.
Lemma dec_cp1258 : dec_ok enc_cp1258 1 (dfin (mem cp1258_sts)) (dpend nz) ucs4 /\ dec_stable enc_cp1258 (dfin (mem cp1258_sts)).
Proof. apply (dec_by_check enc_cp1258 1 cp1258_sts nz 0); [reflexivity|reflexivity|intros t m; vm_cast_no_check (eq_refl true)|reflexivity]. Qed.
Lemma dec_tcvn : dec_ok enc_tcvn 1 (dfin (mem tcvn_sts)) (dpend nz) ucs4 /\ dec_stable enc_tcvn (dfin (mem tcvn_sts)).
Proof. apply (dec_by_check enc_tcvn 1 tcvn_sts nz 0); [reflexivity|reflexivity|intros t m; vm_cast_no_check (eq_refl true)|reflexivity]. Qed.

(** Table entries at constant positions. *)
Ltac tabconst :=
  unfold tget;
  repeat match goal with |- context [tlookup ?t ?i] =>
    let v := eval vm_compute in (tlookup t i) in replace (tlookup t i) with v by (vm_compute; reflexivity) end.

(** Characters in some ranges of blocks of 2^d by computation; none outside. *)
Lemma enc0_by_ranges : forall e K d rs, (1 <= K <= MAXNEED)%nat ->
  (forall m, forallb (fun r => upto (snd r) (fun b => allp d (fst r + b) (fun wc => echk (f_wc e) K (mem [0]) m wc 0))) rs = true) ->
  (forall wc ost n, ucs4 wc -> Forall (fun r => wc < fst r * 2 ^ Z.of_nat d \/ (fst r + Z.of_nat (snd r)) * 2 ^ Z.of_nat d <= wc) rs -> (1 <= n)%nat ->
     f_wc e wc n ost = Ok (-1, [], ost)) ->
  f_reset e = None -> enc_ok e oinv0 ucs4.
Proof.
  intros e K d rs HK H HB HR. constructor; [reflexivity| |intros ost _; rewrite HR; exact I].
  intros ost wc O U. unfold oinv0, mem in O. cbn in O. rewrite orb_false_r in O. apply Z.eqb_eq in O. subst ost.
  assert (P : 0 < 2 ^ Z.of_nat d) by (apply Z.pow_pos_nonneg; lia). set (q := 2 ^ Z.of_nat d) in *.
  destruct (Forall_Exists_dec (fun r : Z * nat => wc < fst r * q \/ (fst r + Z.of_nat (snd r)) * q <= wc)) with (l := rs) as [F|E].
  - intros [a k]. cbn [fst snd]. destruct (Z_lt_dec wc (a * q)); [left; now left|].
    destruct (Z_le_dec ((a + Z.of_nat k) * q) wc); [left; now right|right; lia].
  - exists None, 1%nat. split; [unfold MAXNEED; lia|]. split; [|exact I]. apply enc_ill1. intros n Hn. apply HB; auto.
  - apply Exists_exists in E. destruct E as ((a & k) & Ir & Nr). cbn [fst snd] in Nr.
    assert (L : a * q <= wc < (a + Z.of_nat k) * q) by lia. clear Nr.
    assert (B : a <= wc / q < a + Z.of_nat k).
    { split; [apply Z.div_le_lower_bound; lia|apply Z.div_lt_upper_bound; lia]. }
    destruct (echk_sound e K (mem [0]) wc 0 HK) as (o & need & A1 & A2 & A3).
    + intro m. specialize (H m). rewrite forallb_forall in H. specialize (H _ Ir). cbn [fst snd] in H.
      pose proof (upto_sound _ _ H (wc / q - a) ltac:(lia)) as C. cbv beta in C. replace (a + (wc / q - a)) with (wc / q) in C by lia.
      apply (allp_sound _ _ _ C). fold q. pose proof (Z.div_mod wc q ltac:(lia)). pose proof (Z.mod_pos_bound wc q P). lia.
    + exists o, need. split; [exact A1|]. split; [exact A2|]. destruct o as [[bs ost']|]; auto.
Qed.
Ltac gap F := repeat match type of F with Forall _ (_ :: _) => let A := fresh "G" in apply Forall_cons_iff in F; destruct F as [A F]; cbn [fst snd] in A end;
  repeat match goal with A : _ \/ _ |- _ => match type of A with context [2 ^ _] => 
    match type of A with ?a < ?x \/ ?y <= _ => let x' := eval vm_compute in x in let y' := eval vm_compute in y in change (a < x' \/ y' <= a) in A end end end.

Lemma enc_cp1255_ok : enc_ok enc_cp1255 oinv0 ucs4.
Proof.
  apply (enc0_by_ranges enc_cp1255 3 8 [(0, 6%nat); (0x20, 3%nat); (0xfb, 1%nat)]); [unfold MAXNEED; lia|intro m; vm_cast_no_check (eq_refl true)| |reflexivity].
  intros wc ost n U F Hn. unfold ucs4 in U. gap F. cbn [f_wc enc_cp1255]. unfold wc0. apply holds_eq. sx. all: try reflexivity.
Qed.
Lemma enc_cp1258_ok : enc_ok enc_cp1258 oinv0 ucs4.
Proof.
  apply (enc0_by_ranges enc_cp1258 2 8 [(0, 4%nat); (0x1e, 4%nat)]); [unfold MAXNEED; lia|intro m; vm_cast_no_check (eq_refl true)| |reflexivity].
  intros wc ost n U F Hn. unfold ucs4 in U. gap F. cbn [f_wc enc_cp1258]. unfold wc0. apply holds_eq. sx. all: try reflexivity.
Qed.
Lemma enc_tcvn_ok : enc_ok enc_tcvn oinv0 ucs4.
Proof.
  apply (enc0_by_ranges enc_tcvn 2 8 [(0, 4%nat); (0x1e, 4%nat)]); [unfold MAXNEED; lia|intro m; vm_cast_no_check (eq_refl true)| |reflexivity].
  intros wc ost n U F Hn. unfold ucs4 in U. gap F. cbn [f_wc enc_tcvn]. unfold wc0. apply holds_eq. sx. all: try reflexivity.
Qed.
