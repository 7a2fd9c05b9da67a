(** Contracts of the encodings with a byte order mark. *)
From Coq Require Import ZArith List Bool Lia.
From Verif Require Import Base Loop Contract LoopLib Reflect Sx Rng EncLib DecLib TabLib SbLib Conv_uni Encodings Unroll Ok_uni.
Import ListNotations.
Open Scope Z_scope.

(** State 0; the byte order in the descriptor. *)
Definition bo_inv (i : Z * Z) : Prop := fst i = 0 /\ (snd i = 0 \/ snd i = 1).
Ltac h_cases H ::= let A := fresh in let B := fresh in destruct H as [A B]; cbn [fst snd] in A, B; destruct B as [->| ->].
Ltac h_inv ::= solve [split; [reflexivity|cbn [fst snd]; auto]].
Ltac bom2 C x y v w := assert (x = v) by (shifts_hyps; lia); assert (y = w) by (shifts_hyps; lia); subst x y; clear C.
Ltac bom4 C a b c d va vb vc vd := assert (a = va) by (shifts_hyps; lia); assert (b = vb) by (shifts_hyps; lia);
  assert (c = vc) by (shifts_hyps; lia); assert (d = vd) by (shifts_hyps; lia); subst a b c d; clear C.
Ltac h_norm ::= lazymatch goal with
  | C : Z.shiftl ?a 24 + Z.shiftl ?b 16 + Z.shiftl ?c 8 + ?d = 65279 |- _ => bom4 C a b c d 0 0 254 255
  | C : ?d + Z.shiftl ?c 8 + Z.shiftl ?b 16 + Z.shiftl ?a 24 = 65279 |- _ => bom4 C a b c d 0 0 254 255
  | C : Z.shiftl ?a 24 + Z.shiftl ?b 16 + Z.shiftl ?c 8 + ?d = 4294836224 |- _ => bom4 C a b c d 255 254 0 0
  | C : ?d + Z.shiftl ?c 8 + Z.shiftl ?b 16 + Z.shiftl ?a 24 = 4294836224 |- _ => bom4 C a b c d 255 254 0 0
  | C : Z.shiftl ?x 8 + ?y = 65279 |- _ => bom2 C x y 254 255
  | C : ?y + Z.shiftl ?x 8 = 65279 |- _ => bom2 C x y 254 255
  | C : Z.shiftl ?x 8 + ?y = 65534 |- _ => bom2 C x y 255 254
  | C : ?y + Z.shiftl ?x 8 = 65534 |- _ => bom2 C x y 255 254
  end.

Definition ucs2_L (fuel : nat) (count : Z) (s : list Z) (i : Z * Z) :=
  ucs2_mbtowc_loop fuel count (snd i) s (length s) None (fst i).
Ltac sx_stop m ::= lazymatch m with ucs2_mbtowc_loop _ _ _ _ _ _ _ => idtac | _ => fail end.
Ltac h_again ::= eapply holds_same; [apply ucs2_mbtowc_loop_S|].
Ltac h_open ::= eapply holds_same; [apply ucs2_mbtowc_loop_S|]; cbn [fst snd length].
Ltac h_unL H ::= unfold ucs2_L in H.
Ltac h_count m ::= lazymatch m with ucs2_mbtowc_loop _ ?c _ _ _ _ _ => c end.
Ltac h_state m ::= lazymatch m with ucs2_mbtowc_loop _ _ ?st _ _ _ ?ist => constr:((ist, st)) end.
Lemma dec_ucs2_ok : dec_ok enc_ucs2 2 bo_inv (fun _ => false) ucs4 /\ dec_stable enc_ucs2 bo_inv.
Proof.
  apply (loop_dec enc_ucs2 2 bo_inv (fun _ => false) ucs4 ucs2_L); try reflexivity; try (intros; exact I).
  - intros i j [A B] [C D]. split; auto.
  - intros s [ist ibo] S B Lm [A H]. cbn [fst snd] in A, H. subst ist.
    name_byte s B; [now contradiction S|]; clear S; more; (destruct H as [->| ->]); h_go.
  - split; cbn; auto.
  - intros i [A B]. split; cbn; auto.
Qed.

Definition ucs4_L (fuel : nat) (count : Z) (s : list Z) (i : Z * Z) :=
  ucs4_mbtowc_loop fuel count (snd i) s (length s) None (fst i).
Ltac sx_stop m ::= lazymatch m with ucs4_mbtowc_loop _ _ _ _ _ _ _ => idtac | _ => fail end.
Ltac h_again ::= eapply holds_same; [apply ucs4_mbtowc_loop_S|].
Ltac h_open ::= eapply holds_same; [apply ucs4_mbtowc_loop_S|]; cbn [fst snd length].
Ltac h_unL H ::= unfold ucs4_L in H.
Ltac h_count m ::= lazymatch m with ucs4_mbtowc_loop _ ?c _ _ _ _ _ => c end.
Ltac h_state m ::= lazymatch m with ucs4_mbtowc_loop _ _ ?st _ _ _ ?ist => constr:((ist, st)) end.
Lemma dec_ucs4_ok : dec_ok enc_ucs4 4 bo_inv (fun _ => false) ucs4 /\ dec_stable enc_ucs4 bo_inv.
Proof.
  apply (loop_dec enc_ucs4 4 bo_inv (fun _ => false) ucs4 ucs4_L); try reflexivity; try (intros; exact I).
  - intros i j [A B] [C D]. split; auto.
  - intros s [ist ibo] S B Lm [A H]. cbn [fst snd] in A, H. subst ist.
    name_byte s B; [now contradiction S|]; clear S; more; [|more; [|more]]; (destruct H as [->| ->]); h_go.
  - split; cbn; auto.
  - intros i [A B]. split; cbn; auto.
Qed.

Definition utf16_L (fuel : nat) (count : Z) (s : list Z) (i : Z * Z) :=
  utf16_mbtowc_loop fuel count (snd i) s (length s) None (fst i).
Ltac sx_stop m ::= lazymatch m with utf16_mbtowc_loop _ _ _ _ _ _ _ => idtac | _ => fail end.
Ltac h_again ::= eapply holds_same; [apply utf16_mbtowc_loop_S|].
Ltac h_open ::= eapply holds_same; [apply utf16_mbtowc_loop_S|]; cbn [fst snd length].
Ltac h_unL H ::= unfold utf16_L in H.
Ltac h_count m ::= lazymatch m with utf16_mbtowc_loop _ ?c _ _ _ _ _ => c end.
Ltac h_state m ::= lazymatch m with utf16_mbtowc_loop _ _ ?st _ _ _ ?ist => constr:((ist, st)) end.
Lemma dec_utf16_ok : dec_ok enc_utf16 2 bo_inv (fun _ => false) ucs4 /\ dec_stable enc_utf16 bo_inv.
Proof.
  apply (loop_dec enc_utf16 2 bo_inv (fun _ => false) ucs4 utf16_L); try reflexivity; try (intros; exact I).
  - intros i j [A B] [C D]. split; auto.
  - intros s [ist ibo] S B Lm [A H]. cbn [fst snd] in A, H. subst ist.
    name_byte s B; [now contradiction S|]; clear S; more; [|more; [|more]]; (destruct H as [->| ->]); h_go.
  - split; cbn; auto.
  - intros i [A B]. split; cbn; auto.
Qed.

Definition utf32_L (fuel : nat) (count : Z) (s : list Z) (i : Z * Z) :=
  utf32_mbtowc_loop fuel count (snd i) s (length s) None (fst i).
Ltac sx_stop m ::= lazymatch m with utf32_mbtowc_loop _ _ _ _ _ _ _ => idtac | _ => fail end.
Ltac h_again ::= eapply holds_same; [apply utf32_mbtowc_loop_S|].
Ltac h_open ::= eapply holds_same; [apply utf32_mbtowc_loop_S|]; cbn [fst snd length].
Ltac h_unL H ::= unfold utf32_L in H.
Ltac h_count m ::= lazymatch m with utf32_mbtowc_loop _ ?c _ _ _ _ _ => c end.
Ltac h_state m ::= lazymatch m with utf32_mbtowc_loop _ _ ?st _ _ _ ?ist => constr:((ist, st)) end.
Lemma dec_utf32_ok : dec_ok enc_utf32 4 bo_inv (fun _ => false) ucs4 /\ dec_stable enc_utf32 bo_inv.
Proof.
  apply (loop_dec enc_utf32 4 bo_inv (fun _ => false) ucs4 utf32_L); try reflexivity; try (intros; exact I).
  - intros i j [A B] [C D]. split; auto.
  - intros s [ist ibo] S B Lm [A H]. cbn [fst snd] in A, H. subst ist.
    name_byte s B; [now contradiction S|]; clear S; more; [|more; [|more]]; (destruct H as [->| ->]); h_go.
  - split; cbn; auto.
  - intros i [A B]. split; cbn; auto.
Qed.

Ltac sx_stop m ::= fail.
Ltac e_open ::= change (f_wc enc_ucs2) with (wc0 ucs2_wctomb); unfold wc0.
Lemma enc_ucs2_ok : enc_ok enc_ucs2 oinv0 ucs4.
Proof. enc0_go. Qed.
Ltac e_open ::= change (f_wc enc_ucs4) with (wc0 ucs4_wctomb); unfold wc0.
Lemma enc_ucs4_ok : enc_ok enc_ucs4 oinv0 ucs4.
Proof. enc0_go. Qed.
Ltac e_open ::= change (f_wc enc_utf16) with utf16_wctomb.
Lemma enc_utf16_ok : enc_ok enc_utf16 (fun ost => mem [0; 1] ost = true) ucs4.
Proof.
  apply enc_ok_intro; [in_| |].
  - intros ost wc O U; pose proof U as U'; unfold ucs4 in U'; apply mem_In in O; cbn [In] in O; st_; e_run in_.
  - intros ost O. exact I.
Qed.
Ltac e_open ::= change (f_wc enc_utf32) with utf32_wctomb.
Lemma enc_utf32_ok : enc_ok enc_utf32 (fun ost => mem [0; 1] ost = true) ucs4.
Proof.
  apply enc_ok_intro; [in_| |].
  - intros ost wc O U; pose proof U as U'; unfold ucs4 in U'; apply mem_In in O; cbn [In] in O; st_; e_run in_.
  - intros ost O. exact I.
Qed.
