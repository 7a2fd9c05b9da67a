(** Converter contract (Contract.v) of the encoder of GB18030, 2022 edition.

    The encoder of the 2005 edition has no contract: it writes four bytes where it has checked for two
    (C_iconv.v, C01_refuted). *)
From Coq Require Import ZArith List Bool Lia.
From Verif Require Import Base Loop Contract LoopLib Reflect Sx Rng EncLib DecLib TabLib SbLib Unroll.
From Verif Require Import TabIn_sb TabIn_cjk.
From Verif Require Import Tab_gb Conv_uni Conv_sb Conv_set_ja Conv_set_zh Conv_set_ko Conv_cjk Encodings Leaf DLeaf DCjk CjkLib Ok_gb18030.
Import ListNotations.
Open Scope Z_scope.

Ltac tab_ti t ::= match constr:(tt) with _ => TabIn_cjk.ti_of t | _ => TabIn_sb.ti_of t end.

Definition isbyte (v : Z) : Prop := 0 <= v < 256.
Definition four (m : res (Z * wlog)) : Prop :=
  exists a b c d, isbyte a /\ isbyte b /\ isbyte c /\ isbyte d /\ m = Ok (4, [(0%nat, a); (1%nat, b); (2%nat, c); (3%nat, d)]).
Definition four_or_none (m : res (Z * wlog)) : Prop := m = Ok (-1, []) \/ four m.

Lemma digits : forall i, four (gb18030_2022_uni_wctomb_j2 i []).
Proof.
  intro i. unfold gb18030_2022_uni_wctomb_j2, wr. cbv zeta. do 4 eexists. split; [|split; [|split; [|split; [|reflexivity]]]]; unfold isbyte.
  - apply Z.mod_pos_bound. reflexivity.
  - pose proof (Z.mod_pos_bound (i / 10 / 126) 10 ltac:(lia)). lia.
  - pose proof (Z.mod_pos_bound (i / 10) 126 ltac:(lia)). lia.
  - pose proof (Z.mod_pos_bound i 10 ltac:(lia)). lia.
Qed.
Lemma search_uni : forall fuel i k1 k2, 0 <= k1 -> k1 <= k2 <= 205 -> k2 - k1 < 2 ^ Z.of_nat fuel ->
  four_or_none (gb18030_2022_uni_wctomb_loop (S fuel) i k1 k2 []).
Proof.
  induction fuel as [|fuel IH]; intros i k1 k2 K1 K2 L; rewrite gb18030_2022_uni_wctomb_loop_S; destruct (Z.ltb_spec k1 k2) as [H|H];
    [cbn in L; lia| | |]; cycle 1.
  - destruct (half _ _ _ H L) as (A & B & C). cbv zeta. set (k := (k1 + k2) / 2) in *. clearbody k.
    destruct (ti_gb18030uni_uni2charset_ranges (2 * k + 1) ltac:(lia)) as (x & E & R). unfold tget. rewrite E.
    destruct (i <=? x); [apply IH; lia|].
    destruct (ti_gb18030uni_uni2charset_ranges (2 * k + 2) ltac:(lia)) as (y & E' & R'). rewrite E'.
    destruct (i >=? y); [apply IH; lia|left; reflexivity].
  - destruct (ti_gb18030uni_ranges k1 ltac:(lia)) as (d & E & R). unfold tget. rewrite E. right. apply digits.
  - destruct (ti_gb18030uni_ranges k1 ltac:(lia)) as (d & E & R). unfold tget. rewrite E. right. apply digits.
Qed.
Lemma uni_out : forall wc, ucs4 wc -> four_or_none (gb18030_2022_uni_wctomb wc 4).
Proof.
  intros wc U. assert (S : four_or_none (gb18030_2022_uni_wctomb_j wc [])) by (apply (search_uni 63); [lia..|reflexivity]).
  unfold gb18030_2022_uni_wctomb. cbn [Nat.leb]. cbv zeta.
  destruct (Z.geb_spec wc 128) as [A1|]; [|left; reflexivity]. destruct (Z.leb_spec wc 65535) as [A2|]; [|left; reflexivity].
  cbn [andb]. destruct (wc =? 59335); [right; apply digits|].
  destruct (Z.geb_spec wc 59277) as [B1|B1]; destruct (Z.leb_spec wc 59286) as [B2|B2]; try lia;
  (destruct (Z.geb_spec wc 59422) as [C1|C1]; destruct (Z.leb_spec wc 59492) as [C2|C2]; try lia); try exact S.
  - destruct (ti_gb18030_2022_uni2charset_pua2 (wc - 59277) ltac:(lia)) as (x & E & R). unfold tget. rewrite E. right. apply digits.
  - destruct (ti_gb18030_2022_uni2charset_pua1 (wc - 59422) ltac:(lia)) as (x & E & R). unfold tget. rewrite E.
    destruct (x =? 0); cbn [negb]; [exact S|right; apply digits].
Qed.
Lemma room_uni : forall wc n, (4 <= n)%nat -> gb18030_2022_uni_wctomb wc n = gb18030_2022_uni_wctomb wc 4.
Proof. intros wc [|[|[|[|n]]]] H; [lia..|reflexivity]. Qed.
Lemma tight_uni : forall wc n, (n < 4)%nat -> gb18030_2022_uni_wctomb wc n = Ok (-2, []).
Proof. intros wc [|[|[|[|n]]]] H; [reflexivity..|lia]. Qed.

(** The search in the private-use ranges finds two bytes, or goes on with the four-byte part. *)
Definition pua_found (wc : Z) (L : nat -> res (Z * wlog)) : Prop :=
  (forall n, L n = gb18030_2022_wctomb_j wc n []) \/
  exists a b, isbyte a /\ isbyte b /\ forall n, L n = Ok (2, [(1%nat, b); (0%nat, a)]).
Lemma search_pua : forall fuel k1 k2 wc, 0 <= k1 -> k1 <= k2 <= 23 -> k2 - k1 < 2 ^ Z.of_nat fuel ->
  pua_found wc (fun n => gb18030_2022_wctomb_loop (S fuel) k1 k2 wc n []).
Proof.
  induction fuel as [|fuel IH]; intros k1 k2 wc K1 K2 L.
  - left. intro n. rewrite gb18030_2022_wctomb_loop_S. rewrite (proj2 (Z.ltb_ge k1 k2)) by (cbn in L; lia). reflexivity.
  - destruct (Z.ltb_spec k1 k2) as [H|H].
    + destruct (half _ _ _ H L) as (A & B & C). cbv zeta in *.
      destruct (ti_gb18030_2022_pua2charset ((k1 + k2) / 2 * 3 + 0) ltac:(lia)) as (x & E & R).
      destruct (ti_gb18030_2022_pua2charset ((k1 + k2) / 2 * 3 + 1) ltac:(lia)) as (y & E' & R').
      destruct (ti_gb18030_2022_pua2charset ((k1 + k2) / 2 * 3 + 2) ltac:(lia)) as (z & E2 & R2).
      assert (Q : forall n, gb18030_2022_wctomb_loop (S (S fuel)) k1 k2 wc n [] =
        if wc <? x then gb18030_2022_wctomb_loop (S fuel) k1 ((k1 + k2) / 2) wc n []
        else if wc >? y then gb18030_2022_wctomb_loop (S fuel) ((k1 + k2) / 2 + 1) k2 wc n []
        else let c := u16 (u32 (z + u32 (wc - x))) in Ok (2, [(1%nat, Z.land c 255); (0%nat, Z.shiftr c 8)])).
      { intro n. rewrite gb18030_2022_wctomb_loop_S. rewrite (proj2 (Z.ltb_lt k1 k2) H). cbv zeta. unfold tget. rewrite E, E', E2. reflexivity. }
      set (k := (k1 + k2) / 2) in *. clearbody k.
      destruct (wc <? x).
      { destruct (IH k1 k wc) as [J|(a & b & Ha & Hb & J)]; [lia..|left|right; exists a, b; split; [assumption|split; [assumption|]]]; intro n; rewrite Q; apply J. }
      destruct (wc >? y).
      { destruct (IH (k + 1) k2 wc) as [J|(a & b & Ha & Hb & J)]; [lia..|left|right; exists a, b; split; [assumption|split; [assumption|]]]; intro n; rewrite Q; apply J. }
      cbv zeta in Q. set (c := u16 _) in *. assert (Hc : 0 <= c < 65536) by (apply Z.mod_pos_bound; reflexivity). clearbody c.
      right. exists (Z.shiftr c 8), (Z.land c 255). split; [|split; [|exact Q]]; unfold isbyte.
      * rewrite Z.shiftr_div_pow2 by lia. change (2 ^ 8) with 256. Z.div_mod_to_equations. lia.
      * change 255 with (Z.ones 8). rewrite Z.land_ones by lia. apply Z.mod_pos_bound. reflexivity.
    + left. intro n. rewrite gb18030_2022_wctomb_loop_S. rewrite (proj2 (Z.ltb_ge k1 k2) H). reflexivity.
Qed.
Lemma found_pua : forall wc, pua_found wc (fun n => gb18030_2022_wctomb_loop 64 0 0x17 wc n []).
Proof. intro wc. apply (search_pua 63); [lia..|reflexivity]. Qed.

Ltac sx_pre b ::= u32_in b.
Ltac sx_call m ::=
  lazymatch m with
  | gb18030_2022_wctomb_loop 64%nat _ _ ?wc ?n _ =>
    first
    [ match goal with E : forall n, _ = gb18030_2022_wctomb_j _ _ _ |- _ => eapply holds_same; [exact (E n)|] end
    | match goal with E : forall n, _ = Ok (2, _) |- _ => apply (holds_of _ _ _ _ _ (E n)); cbv beta iota end
    | let E := fresh "E" in let a := fresh "a" in let b := fresh "b" in let A := fresh "A" in let B := fresh "B" in
      destruct (found_pua wc) as [E|(a & b & A & B & E)]; [|unfold isbyte in A, B]; cbv beta in E ]
  | gb18030_2022_uni_wctomb ?wc ?n =>
    first
    [ assert (n < 4)%nat by lia; (eapply holds_same; [apply tight_uni; assumption|])
    | assert (4 <= n)%nat by lia; (eapply holds_same; [apply room_uni; assumption|]);
      first
      [ match goal with E : gb18030_2022_uni_wctomb wc 4%nat = _ |- _ => apply (holds_of _ _ _ _ _ E); cbv beta iota end
      | let E := fresh "E" in let a := fresh "a" in let b := fresh "b" in let c := fresh "c" in let d := fresh "d" in
        let A := fresh "A" in let B := fresh "B" in let C := fresh "C" in let D := fresh "D" in
        destruct (uni_out wc ltac:(assumption)) as [E|(a & b & c & d & A & B & C & D & E)]; [|unfold isbyte in A, B, C, D];
        apply (holds_of _ _ _ _ _ E); cbv beta iota ]
    | let H := fresh "N" in destruct (le_lt_dec 4 n) as [H|H] ]
  | _ => cjk_call m
  end.
Ltac e_open ::= change (f_wc enc_gb18030_2022) with (wc0 gb18030_2022_wctomb); unfold wc0.
Lemma enc_gb18030_2022_ok : enc_ok enc_gb18030_2022 oinv0 ucs4.
Proof. apply enc0_intro; [reflexivity|]; let wc := fresh "wc" in let U := fresh "U" in intros wc U; pose proof U; unfold ucs4 in U; e_run in_. Qed.
