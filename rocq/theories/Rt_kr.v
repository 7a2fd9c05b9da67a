(** ISO-2022-KR and HZ read back what was written. *)
From Coq Require Import ZArith List Bool Lia.
From Verif Require Import Base Loop Contract LoopLib Reflect Sx Rng EncLib DecLib Spec SpecProps Leaf CharLib UniSpec Round DLeaf Unroll RtLib Rt_sets.
From Verif Require Import Conv_uni Conv_sb Conv_set_ja Conv_set_zh Conv_set_ko Conv_cjk Conv_iso2022 Encodings.
Import ListNotations.
Open Scope Z_scope.

(** ISO-2022-KR: the writer forgets its designation at the end of a line, the reader does not. *)
Definition iso2022_kr_pairs : list (Z * Z) := [(0, 0); (0, 0x100); (0x100, 0x100); (0x101, 0x101)].
Ltac sx_call m ::=
  lazymatch m with
  | ksc5601_wctomb ?wc _ => back_2 leaf_ksc5601 back_ksc5601 wc
  | _ => dl_call m
  end.
Ltac s_open ::= change (f_mb enc_iso2022_kr) with iso2022_kr_mbtowc.
Ltac s_rel ::= split; [vm_compute; tauto|reflexivity].
Lemma iso2022_kr_step : forall c o i, plain [0x0e; 0x0f; 0x1b] c -> paired iso2022_kr_pairs o i -> sgoal enc_iso2022_kr (paired iso2022_kr_pairs) c o i.
Proof.
  intros c o (ist, ibo) (U & T & N) (R & S). cbn [fst snd] in R, S. subst ibo. apply scalar_ucs4 in U. clear T. cbn [In] in N.
  revert R. unfold iso2022_kr_pairs at 1. intros R. repeat (destruct R as [R|R]; [injection R as <- <-; unfold sgoal; change (f_wc enc_iso2022_kr) with iso2022_kr_wctomb; sx|]); try contradiction R.
  all: s_end.
Qed.
Lemma iso2022_kr_carries : carries enc_iso2022_kr (plain [0x0e; 0x0f; 0x1b]).
Proof. apply (paired_step _ _ iso2022_kr_pairs); [vm_compute; tauto|exact iso2022_kr_step|vm_compute; reflexivity]. Qed.

(** HZ *)
Lemma gb_lead : forall a b x, gb2312_mbtowc [a; b] 2 = Ok (2, x) -> a <> 0x7e.
Proof. intros a b x H ->. cbv in H. discriminate. Qed.
Definition hz_pairs : list (Z * Z) := [(0, 0); (1, 1)].
Ltac sx_call m ::=
  lazymatch m with
  | gb2312_wctomb ?wc _ => back_2 leaf_gb2312 back_gb2312 wc; try match goal with H : gb2312_mbtowc _ _ = Ok _ |- _ => pose proof (gb_lead _ _ _ H) end
  | _ => dl_call m
  end.
Ltac s_open ::= change (f_mb enc_hz) with hz_mbtowc.
Ltac s_rel ::= split; [vm_compute; tauto|reflexivity].
Lemma hz_step : forall c o i, plain [0x7e] c -> paired hz_pairs o i -> sgoal enc_hz (paired hz_pairs) c o i.
Proof.
  intros c o (ist, ibo) (U & T & N) (R & S). cbn [fst snd] in R, S. subst ibo. apply scalar_ucs4 in U. clear T. cbn [In] in N.
  revert R. unfold hz_pairs at 1. intros R. repeat (destruct R as [R|R]; [injection R as <- <-; unfold sgoal; change (f_wc enc_hz) with hz_wctomb; sx|]); try contradiction R.
  all: s_end.
Qed.
Lemma hz_carries : carries enc_hz (plain [0x7e]).
Proof. apply (paired_step _ _ hz_pairs); [vm_compute; tauto|exact hz_step|vm_compute; reflexivity]. Qed.

