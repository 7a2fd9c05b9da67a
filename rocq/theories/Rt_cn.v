(** ISO-2022-CN reads back what was written. *)
From Coq Require Import ZArith List Bool Lia.
From Verif Require Import Base Loop Contract LoopLib Reflect Sx Rng EncLib DecLib Spec SpecProps Leaf CharLib UniSpec Round DLeaf Unroll RtLib Rt_sets Rt_cns.
From Verif Require Import Conv_uni Conv_sb Conv_set_ja Conv_set_zh Conv_set_ko Conv_cjk Conv_iso2022 Encodings.
Import ListNotations.
Open Scope Z_scope.

(** ISO-2022-CN *)
Definition cn_st (s1 s2 s3 : Z) : Z := Z.lor (Z.lor (Z.shiftl s3 16) (Z.shiftl s2 8)) s1.
Definition cn_rel (o : Z) (i : Z * Z) : Prop := exists s1 s2 s3, 0 <= s1 <= 1 /\ 0 <= s2 <= 2 /\ 0 <= s3 <= 1 /\ (s1 = 1 -> s2 <> 0) /\ o = cn_st s1 s2 s3 /\ i = (cn_st s1 s2 s3, 0).
Lemma cn_parts : forall s1 s2 s3, 0 <= s1 <= 1 -> 0 <= s2 <= 2 -> 0 <= s3 <= 1 -> Z.land (cn_st s1 s2 s3) 0xff = s1 /\ Z.land (Z.shiftr (cn_st s1 s2 s3) 8) 0xff = s2 /\ Z.shiftr (cn_st s1 s2 s3) 16 = s3.
Proof. intros. repeat split; unpack_. Qed.
Ltac sx_call m ::=
  lazymatch m with
  | gb2312_wctomb ?wc _ => back_2 leaf_gb2312 back_gb2312 wc
  | _ => cns_call m
  end.
Ltac cn_split :=
  match goal with |- context [cn_st ?a1 ?a2 ?a3] => let E := fresh in let P1 := fresh in let P2 := fresh in let P3 := fresh in
    assert (E := cn_parts a1 a2 a3 ltac:(lia) ltac:(lia) ltac:(lia)); destruct E as (P1 & P2 & P3); rewrite ?P1, ?P2, ?P3; clear P1 P2 P3 end.
Ltac s_open ::= change (f_mb enc_iso2022_cn) with iso2022_cn_mbtowc; unfold iso2022_cn_mbtowc; cn_split.
Ltac s_rel ::= lazymatch goal with |- cn_rel (Z.lor (Z.lor (Z.shiftl ?x3 16) (Z.shiftl ?x2 8)) ?x1) ((Z.lor (Z.lor (Z.shiftl ?x3' 16) (Z.shiftl ?x2' 8)) ?x1'), _) =>
  exists x1, x2, x3; split; [lia|]; split; [lia|]; split; [lia|]; split; [lia|]; split; [reflexivity|]; unfold cn_st; first [reflexivity|replace x1' with x1 by lia; replace x2' with x2 by lia; replace x3' with x3 by lia; reflexivity] end.
Lemma iso2022_cn_step : forall c o i, plain [0x0e; 0x0f; 0x1b] c -> cn_rel o i -> sgoal enc_iso2022_cn cn_rel c o i.
Proof.
  intros c o i (U & T & N) (s1 & s2 & s3 & H1 & H2 & H3 & SO & -> & ->). apply scalar_ucs4 in U. unfold tag in T. cbn [In] in N. pose proof U as U'. unfold ucs4 in U'.
  unfold sgoal. change (f_wc enc_iso2022_cn) with iso2022_cn_wctomb. unfold iso2022_cn_wctomb. cn_split. sx.
  all: s_end.
Qed.
Lemma iso2022_cn_carries : carries enc_iso2022_cn (plain [0x0e; 0x0f; 0x1b]).
Proof.
  apply (rel_step _ _ cn_rel); [exists 0, 0, 0; repeat split; lia|exact iso2022_cn_step|].
  intros o i (s1 & s2 & s3 & H1 & H2 & H3 & SO & -> & ->). split; [|reflexivity]. enum_; try (exfalso; lia); vm_compute; reflexivity.
Qed.
