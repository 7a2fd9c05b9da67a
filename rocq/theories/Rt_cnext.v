(** ISO-2022-CN-EXT reads back what was written. *)
From Coq Require Import ZArith List Bool Lia.
From Verif Require Import Base Loop Contract LoopLib Reflect Sx Rng EncLib DecLib Spec SpecProps Leaf CharLib UniSpec Round DLeaf Unroll RtLib Rt_sets Rt_cns.
From Verif Require Import Conv_uni Conv_sb Conv_set_ja Conv_set_zh Conv_set_ko Conv_cjk Conv_iso2022 Encodings.
Import ListNotations.
Open Scope Z_scope.

(** ISO-2022-CN-EXT *)
Definition cn_ext_st (s1 s2 s3 s4 : Z) : Z := Z.lor (Z.lor (Z.lor (Z.shiftl s4 24) (Z.shiftl s3 16)) (Z.shiftl s2 8)) s1.
Definition cn_ext_rel (o : Z) (i : Z * Z) : Prop := exists s1 s2 s3 s4, 0 <= s1 <= 1 /\ 0 <= s2 <= 3 /\ 0 <= s3 <= 1 /\ 0 <= s4 <= 5 /\ (s1 = 1 -> s2 <> 0) /\ o = cn_ext_st s1 s2 s3 s4 /\ i = (cn_ext_st s1 s2 s3 s4, 0).
Lemma cn_ext_parts : forall s1 s2 s3 s4, 0 <= s1 <= 1 -> 0 <= s2 <= 3 -> 0 <= s3 <= 1 -> 0 <= s4 <= 5 -> Z.land (cn_ext_st s1 s2 s3 s4) 0xff = s1 /\ Z.land (Z.shiftr (cn_ext_st s1 s2 s3 s4) 8) 0xff = s2 /\ Z.land (Z.shiftr (cn_ext_st s1 s2 s3 s4) 16) 0xff = s3 /\ Z.shiftr (cn_ext_st s1 s2 s3 s4) 24 = s4.
Proof. intros. repeat split; unpack_. Qed.
Ltac sx_call m ::=
  lazymatch m with
  | gb2312_wctomb ?wc _ => back_2 leaf_gb2312 back_gb2312 wc
  | isoir165_wctomb ?wc _ => back_2 leaf_isoir165 back_isoir165 wc
  | _ => cns_call m
  end.
Ltac cn_ext_split :=
  match goal with |- context [cn_ext_st ?a1 ?a2 ?a3 ?a4] => let E := fresh in let P1 := fresh in let P2 := fresh in let P3 := fresh in let P4 := fresh in
    assert (E := cn_ext_parts a1 a2 a3 a4 ltac:(lia) ltac:(lia) ltac:(lia) ltac:(lia)); destruct E as (P1 & P2 & P3 & P4); rewrite ?P1, ?P2, ?P3, ?P4; clear P1 P2 P3 P4 end.
Ltac s_open ::= change (f_mb enc_iso2022_cn_ext) with iso2022_cn_ext_mbtowc; unfold iso2022_cn_ext_mbtowc; cn_ext_split.
Ltac s_rel ::= lazymatch goal with |- cn_ext_rel (Z.lor (Z.lor (Z.lor (Z.shiftl ?x4 24) (Z.shiftl ?x3 16)) (Z.shiftl ?x2 8)) ?x1) ((Z.lor (Z.lor (Z.lor (Z.shiftl ?x4' 24) (Z.shiftl ?x3' 16)) (Z.shiftl ?x2' 8)) ?x1'), _) =>
  exists x1, x2, x3, x4; split; [lia|]; split; [lia|]; split; [lia|]; split; [lia|]; split; [lia|]; split; [reflexivity|]; unfold cn_ext_st; first [reflexivity|replace x1' with x1 by lia; replace x2' with x2 by lia; replace x3' with x3 by lia; replace x4' with x4 by lia; reflexivity] end.
Lemma iso2022_cn_ext_step : forall c o i, plain [0x0e; 0x0f; 0x1b] c -> cn_ext_rel o i -> sgoal enc_iso2022_cn_ext cn_ext_rel c o i.
Proof.
  intros c o i (U & T & N) (s1 & s2 & s3 & s4 & H1 & H2 & H3 & H4 & SO & -> & ->). apply scalar_ucs4 in U. unfold tag in T. cbn [In] in N. pose proof U as U'. unfold ucs4 in U'.
  unfold sgoal. change (f_wc enc_iso2022_cn_ext) with iso2022_cn_ext_wctomb. unfold iso2022_cn_ext_wctomb. cn_ext_split. sx.
  all: s_end.
Qed.
Lemma iso2022_cn_ext_carries : carries enc_iso2022_cn_ext (plain [0x0e; 0x0f; 0x1b]).
Proof.
  apply (rel_step _ _ cn_ext_rel); [exists 0, 0, 0, 0; repeat split; lia|exact iso2022_cn_ext_step|].
  intros o i (s1 & s2 & s3 & s4 & H1 & H2 & H3 & H4 & SO & -> & ->). split; [|reflexivity]. enum_; try (exfalso; lia); vm_compute; reflexivity.
Qed.
