(** Decoder contract of ISO-2022-JP-3. *)
From Coq Require Import ZArith List Bool Lia.
From Verif Require Import Base Loop Contract LoopLib Reflect Sx Rng EncLib DecLib DLeaf JLeaf.
From Verif Require Import Tab_jis Conv_uni Conv_sb Conv_set_ja Conv_set_zh Conv_set_ko Conv_cjk Conv_iso2022 Encodings Unroll.
Import ListNotations.
Open Scope Z_scope.

Definition jp3_ists : list Z := [0; 1; 2; 3; 4; 5; 0x172c; 0x174c; 0x1804; 0x180c; 0x184d4].
Definition jp3_dinv (i : Z * Z) : Prop := mem jp3_ists (fst i) = true /\ snd i = 0.
Definition jp3_pend (i : Z * Z) : bool := negb (Z.shiftr (fst i) 3 =? 0).
(** The decoder, which first delivers a pending character. *)
Definition jp3_L (fuel : nat) (count : Z) (s : list Z) (i : Z * Z) : res (Z * option Z * Z * Z) :=
  if negb (Z.shiftr (fst i) 3 =? 0) then Ok (count, Some (Z.shiftr (fst i) 3), Z.land (fst i) 7, snd i)
  else iso2022_jp3_mbtowc_loop fuel count (fst i) s (Z.to_nat count + length s) None (snd i).
Lemma jp3_L_eq : forall fuel count s st ibo, 0 <= st <= 5 -> jp3_L fuel count s (st, ibo) =
  iso2022_jp3_mbtowc_loop fuel count st s (Z.to_nat count + length s) None ibo.
Proof.
  intros fuel count s st ibo H. unfold jp3_L. cbn [fst snd]. replace (Z.shiftr st 3) with 0 by (enum_; reflexivity). reflexivity.
Qed.
Lemma jp3_L_S : forall fuel count s st ibo, 0 <= st <= 5 -> jp3_L (S fuel) count s (st, ibo) =
  ltac:(let T := type of (iso2022_jp3_mbtowc_loop_S fuel count st s (Z.to_nat count + length s) None ibo) in lazymatch T with _ = ?b => exact b end).
Proof. intros. rewrite jp3_L_eq by assumption. exact (iso2022_jp3_mbtowc_loop_S fuel count st s (Z.to_nat count + length s) None ibo). Qed.
Lemma jp3_f_mb : f_mb enc_iso2022_jp3 = iso2022_jp3_mbtowc.
Proof. reflexivity. Qed.
Lemma jp3_He : forall s i, f_mb enc_iso2022_jp3 s (length s) (fst i) (snd i) = jp3_L (8 + 4 * length s) 0 s i.
Proof.
  intros s i. rewrite jp3_f_mb. unfold iso2022_jp3_mbtowc, jp3_L. cbv zeta.
  change (Z.to_nat 0 + length s)%nat with (length s). reflexivity.
Qed.

Lemma j213_out : forall p, p = 1 \/ p = 2 -> forall a b, 0 <= a < 256 -> 0 <= b < 256 ->
  exists v, jisx0213_to_ucs4 (Z.shiftl p 8 + a) b = Ok v /\
  (v = 0 \/ 0x80 <= v < 0x110000 \/ (1 <= v < 0x80 /\ p = 1 /\ exists w1 w2,
     tlookup jisx0213_to_ucs_combining (2 * (v - 1)) = Some w1 /\ tlookup jisx0213_to_ucs_combining (2 * (v - 1) + 1) = Some w2 /\
     0 <= w1 < 0x110000 /\ In w2 jp3_halves)).
Proof.
  intros p P a b A B. destruct (j213_row (Z.shiftl p 8 + a) b) as (v & E & V). exists v. split; [exact E|].
  destruct V as [V|[V|(V & R & w1 & w2 & E1 & E2 & W & I)]]; [now left|right; left; lia|right; right]. split; [lia|].
  split; [destruct P as [->| ->]; [reflexivity|]; change (Z.shiftl 2 8) with 512 in R; lia|]. exists w1, w2. repeat split; auto; lia.
Qed.
Ltac j213_call a b p :=
  let v := fresh "v" in let E := fresh "E" in let V := fresh "V" in let w1 := fresh "w" in let w2 := fresh "w" in
  let E1 := fresh "E" in let E2 := fresh "E" in let R1 := fresh "R" in let R2 := fresh "R" in let P := fresh "P" in
  destruct (j213_out p ltac:(lia) a b ltac:(lia) ltac:(lia)) as (v & E & [V|[V|(V & P & w1 & w2 & E1 & E2 & R1 & R2)]]);
  [ subst v | | first [exfalso; lia | clear P; cbn [In jp3_halves] in R2; repeat (destruct R2 as [R2|R2]; [subst w2|]); [..|contradiction R2]] ];
  (eapply holds_same; [exact E|]); apply holds_ok; cbv beta.

Ltac sx_call m ::=
  lazymatch m with
  | jisx0213_to_ucs4 (Z.shiftl ?e 8 + ?a) ?b =>
     first [ match goal with E : jisx0213_to_ucs4 (Z.shiftl _ 8 + a) b = Ok _ |- _ => eapply holds_same; [exact E|]; apply holds_ok; cbv beta end
           | let p := eval vm_compute in e in j213_call a b p ]
  | tget ?t ?i _ => match goal with E : tlookup t i = Some _ |- _ => apply (holds_tget _ _ _ _ _ _ _ E); cbv beta end
  | _ => dl_call m
  end.
Ltac sx_stop m ::= lazymatch m with iso2022_jp3_mbtowc_loop _ _ _ _ _ _ _ => idtac | _ => fail end.
Ltac h_open ::= eapply holds_same; [apply jp3_L_S; lia|]; cbn [length].
Ltac h_unL H ::= rewrite jp3_L_eq in H by lia.
Ltac h_count m ::= lazymatch m with iso2022_jp3_mbtowc_loop _ ?c _ _ _ _ _ => c end.
Ltac h_state m ::= lazymatch m with iso2022_jp3_mbtowc_loop _ _ ?st _ _ _ ?ibo => constr:((st, ibo)) end.
Ltac h_inv ::= solve [split; reflexivity].

Lemma jp3_pending : forall s ist, mem jp3_ists ist = true -> jp3_pend (ist, 0) = true -> hgoal 1 jp3_dinv jp3_pend ucs4 jp3_L s (ist, 0).
Proof.
  intros s ist A P.
  assert (X : mem jp3_ists (Z.land ist 7) = true /\ jp3_pend (Z.land ist 7, 0) = false /\ ucs4 (Z.shiftr ist 3)).
  { apply mem_In in A. cbn [In jp3_ists] in A. repeat (destruct A as [A|A]; [subst ist; first [discriminate P|repeat split; discriminate]|]). contradiction. }
  destruct X as (X1 & X2 & X3).
  exists (HFin (DChar 0 (Z.shiftr ist 3) (Z.land ist 7, 0))).
  assert (Hh : forall u, hat jp3_L (HFin (DChar 0 (Z.shiftr ist 3) (Z.land ist 7, 0))) u (ist, 0)).
  { intros u fuel count _ Hc _. unfold jp3_L. unfold jp3_pend in P. cbn [fst snd] in P |- *. rewrite P. rewrite view_char by exact Hc.
    cbn [dshift]. rewrite Nat.add_0_r. reflexivity. }
  split; [|split; [apply Hh|intros t _; apply Hh]].
  split; [|reflexivity]. cbn [fst snd]. repeat split; try lia; try assumption; try reflexivity; apply X3.
Qed.

Lemma dec_iso2022_jp3_ok : dec_ok enc_iso2022_jp3 1 jp3_dinv jp3_pend ucs4 /\ dec_stable enc_iso2022_jp3 jp3_dinv.
Proof.
  apply (loop_dec enc_iso2022_jp3 1 jp3_dinv jp3_pend ucs4 jp3_L).
  - exact jp3_He.
  - intros i j [A B] [C D]. split; auto.
  - intros; reflexivity.
  - intros s [ist ibo] S B Lm [A H]. cbn [fst snd] in A, H. subst ibo.
    destruct (jp3_pend (ist, 0)) eqn:P; [now apply jp3_pending|].
    name_byte s B; [now contradiction S|]; clear S. apply mem_In in A. cbn [In jp3_ists] in A.
    repeat (destruct A as [A|A]; [subst ist|]); [..|contradiction]; try discriminate P; clear P; iso_bytes 27 w4.
    all: h_go.
  - h_inv.
  - intros i [A B]. split; [reflexivity|exact B].
  - intros; reflexivity.
  - intros [ist ibo] [A B]. cbn [fst snd] in A, B. subst ibo. cbn [f_flush enc_iso2022_jp3 fst snd]. apply mem_In in A. cbn [In jp3_ists] in A.
    repeat (destruct A as [A|A]; [subst ist; eexists _, _, _; split; [reflexivity|split; [h_inv|split; [intro X; first [reflexivity|discriminate X]|
      intro X; first [now contradiction X|eexists; split; [reflexivity|split; [split; reflexivity || discriminate|eexists; reflexivity]]]]]]|]).
    contradiction.
Qed.
