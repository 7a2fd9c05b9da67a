(** The two-byte charsets JIS X 0208, JIS X 0212, GB 2312 and KS C 5601, used as encodings of their own, read back what was written. *)
From Coq Require Import ZArith List Bool Lia.
From Verif Require Import Base Loop Contract LoopLib Reflect Sx Rng EncLib DecLib Spec SpecProps Leaf CharLib UniSpec Round DLeaf Unroll RtLib Rt_sets Rt_euctw.
From Verif Require Import Conv_uni Conv_sb Conv_set_ja Conv_set_zh Conv_set_ko Conv_cjk Conv_iso2022 Encodings.
Import ListNotations.
Open Scope Z_scope.

Lemma raw_carries : forall g h, (forall wc, g wc 16%nat = g wc 2%nat) -> (forall a b t n, h (a :: b :: t) (S (S n)) = h [a; b] 2%nat) ->
  (forall wc, ucs4 wc -> leaf_ok 2 (inr 0x21 0x7e) (g wc 2%nat) = true) -> (forall c, ucs4 c -> back2 g h c = true) ->
  carries (mkFuncs (mb0 h) None (wc0 g) None) (plain []).
Proof.
  intros g h G H L R. apply (rel_step _ _ none_rel); [split; reflexivity| |intros o i (-> & ->); split; reflexivity].
  intros c o i (U & T & N) (-> & ->). apply scalar_ucs4 in U. unfold sgoal. cbn [f_wc]. unfold wc0. rewrite G.
  destruct (leaf_ok_sound _ _ _ (L c U)) as [E|(a & b & J & E)]; rewrite E; [left; reflexivity|].
  pose proof (back2_use _ _ _ _ _ _ (R c U) E eq_refl eq_refl) as B. right.
  change (sleaf (mkFuncs (mb0 h) None (wc0 g) None) none_rel c (0, 0) [a; b] 0 /\ [a; b] <> []). split; [|discriminate].
  exists (0, 0). split; [|split; reflexivity]. intros t _ _. apply dec_by. cbn [app length fst snd f_mb]. unfold mb0. rewrite H, B. reflexivity.
Qed.
Lemma jisx0208_carries : carries enc_jisx0208 (plain []).
Proof. exact (raw_carries jisx0208_wctomb jisx0208_mbtowc (fun _ => eq_refl) (fun _ _ _ _ => eq_refl) leaf_jisx0208 back_jisx0208). Qed.
Lemma jisx0212_carries : carries enc_jisx0212 (plain []).
Proof. exact (raw_carries jisx0212_wctomb jisx0212_mbtowc (fun _ => eq_refl) (fun _ _ _ _ => eq_refl) leaf_jisx0212 back_jisx0212). Qed.
Lemma gb2312_carries : carries enc_gb2312 (plain []).
Proof. exact (raw_carries gb2312_wctomb gb2312_mbtowc (fun _ => eq_refl) (fun _ _ _ _ => eq_refl) leaf_gb2312 back_gb2312). Qed.
Lemma ksc5601_carries : carries enc_ksc5601 (plain []).
Proof. exact (raw_carries ksc5601_wctomb ksc5601_mbtowc (fun _ => eq_refl) (fun _ _ _ _ => eq_refl) leaf_ksc5601 back_ksc5601). Qed.
