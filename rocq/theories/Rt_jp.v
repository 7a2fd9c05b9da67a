(** ISO-2022-JP and ISO-2022-JP-1 read back what was written. *)
From Coq Require Import ZArith List Bool Lia.
From Verif Require Import Base Loop Contract LoopLib Reflect Sx Rng EncLib DecLib Spec SpecProps Leaf CharLib UniSpec Round DLeaf Unroll RtLib Rt_sets.
From Verif Require Import Conv_uni Conv_sb Conv_set_ja Conv_set_zh Conv_set_ko Conv_cjk Conv_iso2022 Encodings.
Import ListNotations.
Open Scope Z_scope.

(** ISO-2022-JP *)
Definition iso2022_jp_pairs : list (Z * Z) := [(0, 0); (1, 1); (2, 2)].
Ltac sx_call m ::=
  lazymatch m with
  | jisx0208_wctomb ?wc _ => back_2 leaf_jisx0208 back_jisx0208 wc
  | _ => dl_call m
  end.
Ltac s_open ::= change (f_mb enc_iso2022_jp) with iso2022_jp_mbtowc.
Ltac s_rel ::= split; [vm_compute; tauto|reflexivity].
Lemma iso2022_jp_step : forall c o i, plain [0x0e; 0x0f; 0x1b] c -> paired iso2022_jp_pairs o i -> sgoal enc_iso2022_jp (paired iso2022_jp_pairs) c o i.
Proof.
  intros c o (ist, ibo) (U & T & N) (R & S). cbn [fst snd] in R, S. subst ibo. apply scalar_ucs4 in U. clear T. cbn [In] in N.
  revert R. unfold iso2022_jp_pairs at 1. intros R. repeat (destruct R as [R|R]; [injection R as <- <-; unfold sgoal; change (f_wc enc_iso2022_jp) with iso2022_jp_wctomb; sx|]); try contradiction R.
  all: s_end.
Qed.
Lemma iso2022_jp_carries : carries enc_iso2022_jp (plain [0x0e; 0x0f; 0x1b]).
Proof. apply (paired_step _ _ iso2022_jp_pairs); [vm_compute; tauto|exact iso2022_jp_step|vm_compute; reflexivity]. Qed.

(** ISO-2022-JP-1 *)
Definition iso2022_jp1_pairs : list (Z * Z) := [(0, 0); (1, 1); (2, 2); (3, 3)].
Ltac sx_call m ::=
  lazymatch m with
  | jisx0208_wctomb ?wc _ => back_2 leaf_jisx0208 back_jisx0208 wc
  | jisx0212_wctomb ?wc _ => back_2 leaf_jisx0212 back_jisx0212 wc
  | _ => dl_call m
  end.
Ltac s_open ::= change (f_mb enc_iso2022_jp1) with iso2022_jp1_mbtowc.
Ltac s_rel ::= split; [vm_compute; tauto|reflexivity].
Lemma iso2022_jp1_step : forall c o i, plain [0x0e; 0x0f; 0x1b] c -> paired iso2022_jp1_pairs o i -> sgoal enc_iso2022_jp1 (paired iso2022_jp1_pairs) c o i.
Proof.
  intros c o (ist, ibo) (U & T & N) (R & S). cbn [fst snd] in R, S. subst ibo. apply scalar_ucs4 in U. clear T. cbn [In] in N.
  revert R. unfold iso2022_jp1_pairs at 1. intros R. repeat (destruct R as [R|R]; [injection R as <- <-; unfold sgoal; change (f_wc enc_iso2022_jp1) with iso2022_jp1_wctomb; sx|]); try contradiction R.
  all: s_end.
Qed.
Lemma iso2022_jp1_carries : carries enc_iso2022_jp1 (plain [0x0e; 0x0f; 0x1b]).
Proof. apply (paired_step _ _ iso2022_jp1_pairs); [vm_compute; tauto|exact iso2022_jp1_step|vm_compute; reflexivity]. Qed.

