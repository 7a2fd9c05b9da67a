(** ISO-2022-JP-2 reads back what was written. *)
From Coq Require Import ZArith List Bool Lia.
From Verif Require Import Base Loop Contract LoopLib Reflect Sx Rng EncLib DecLib Spec SpecProps Leaf CharLib UniSpec Round DLeaf Unroll RtLib Rt_sets.
From Verif Require Import Conv_uni Conv_sb Conv_set_ja Conv_set_zh Conv_set_ko Conv_cjk Conv_iso2022 Encodings.
Import ListNotations.
Open Scope Z_scope.

Definition jp2_o (s1 s2 : Z) : Z := Z.lor (Z.lor (Z.shiftl 0 16) (Z.shiftl s2 8)) s1.
Definition jp2_i (s1 s2 : Z) : Z := Z.lor (Z.shiftl s2 8) s1.
Definition jp2_rel (o : Z) (i : Z * Z) : Prop := exists s1 s2, 0 <= s1 <= 6 /\ 0 <= s2 <= 2 /\ o = jp2_o s1 s2 /\ i = (jp2_i s1 s2, 0).
Lemma jp2_o_parts : forall s1 s2, 0 <= s1 <= 6 -> 0 <= s2 <= 2 -> Z.land (jp2_o s1 s2) 0xff = s1 /\ Z.land (Z.shiftr (jp2_o s1 s2) 8) 0xff = s2 /\ Z.shiftr (jp2_o s1 s2) 16 = 0.
Proof. intros s1 s2 A B. repeat split; unpack_. Qed.
Lemma jp2_i_parts : forall s1 s2, 0 <= s1 <= 6 -> 0 <= s2 <= 2 -> Z.land (jp2_i s1 s2) 0xff = s1 /\ Z.shiftr (jp2_i s1 s2) 8 = s2.
Proof. intros s1 s2 A B. repeat split; unpack_. Qed.
Ltac sx_call m ::=
  lazymatch m with
  | jisx0208_wctomb ?wc _ => back_2 leaf_jisx0208 back_jisx0208 wc
  | jisx0212_wctomb ?wc _ => back_2 leaf_jisx0212 back_jisx0212 wc
  | gb2312_wctomb ?wc _ => back_2 leaf_gb2312 back_gb2312 wc
  | ksc5601_wctomb ?wc _ => back_2 leaf_ksc5601 back_ksc5601 wc
  | iso8859_7_wctomb ?wc _ => back_1 leaf_iso8859_7 back_iso8859_7 wc
  | iso8859_7_mbtowc [?a - 128 + 128] _ => replace (a - 128 + 128) with a by lia; dl_call (iso8859_7_mbtowc [a] 1%nat)
  | _ => dl_call m
  end.
Ltac s_open ::= change (f_mb enc_iso2022_jp2) with iso2022_jp2_mbtowc; unfold iso2022_jp2_mbtowc;
  match goal with |- context [jp2_i ?a ?b] => let E := fresh in let A := fresh in let B := fresh in
    assert (E := jp2_i_parts a b ltac:(lia) ltac:(lia)); destruct E as (A & B); rewrite ?A, ?B; clear A B end.
Ltac s_rel ::= lazymatch goal with |- jp2_rel (Z.lor (Z.lor (Z.shiftl _ 16) (Z.shiftl ?b 8)) ?a) (Z.lor (Z.shiftl ?b' 8) ?a', _) =>
  exists a, b; split; [lia|split; [lia|split; [reflexivity|]]]; unfold jp2_i; first [reflexivity|replace a' with a by lia; replace b' with b by lia; reflexivity] end.
Lemma iso2022_jp2_step : forall c o i, plain [0x1b] c -> jp2_rel o i -> sgoal enc_iso2022_jp2 jp2_rel c o i.
Proof.
  intros c o i (U & T & N) (s1 & s2 & H1 & H2 & -> & ->). apply scalar_ucs4 in U. unfold tag in T. cbn [In] in N. pose proof U as U'. unfold ucs4 in U'.
  unfold sgoal. change (f_wc enc_iso2022_jp2) with iso2022_jp2_wctomb. unfold iso2022_jp2_wctomb.
  destruct (jp2_o_parts s1 s2 H1 H2) as (A & B & C). rewrite A, B, C. clear A B C. sx.
  all: s_end.
Qed.
Lemma iso2022_jp2_carries : carries enc_iso2022_jp2 (plain [0x1b]).
Proof.
  apply (rel_step _ _ jp2_rel); [exists 0, 0; repeat split; lia|exact iso2022_jp2_step|].
  intros o i (s1 & s2 & H1 & H2 & -> & ->). split; [|reflexivity]. enum_; vm_compute; reflexivity.
Qed.
