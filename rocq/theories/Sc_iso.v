(** The decoders of ISO-2022 and HZ store only scalar values: each turn of their loops by induction on the number of turns. *)
From Coq Require Import ZArith List Bool Lia.
From Verif Require Import Base UniSpec Contract ScLib Sc_sets Conv_uni Conv_set_ko Conv_set_zh Conv_set_ja Conv_sb Conv_cjk Conv_iso2022.
Import ListNotations.
Open Scope Z_scope.
Ltac kni := first [kn | solve [first [apply sc_jisx0201 | apply sc_iso8859_1 | apply sc_iso8859_7]; apply bytes_one;
  repeat match goal with H : (if ?a then _ else _) = _ |- _ => destruct a eqn:?; try discriminate H end; lia]].
Lemma sc_hz_loop : forall fuel, (forall count state s n pwc ibo, bytes s -> okw pwc -> scp p4 (hz_mbtowc_loop fuel count state s n pwc ibo)).
Proof.
  induction fuel as [|fuel IH]; [repeat split; intros; exact I|]. rename IH into IH0. intros; cbn [hz_mbtowc_loop];
    repeat sstep ltac:(first [first [apply IH0]; [solve [repeat apply bytes_skipn; assumption]|solve [leaf]]|kni]).
Qed.
Lemma sc_hz : forall s n ist ibo, bytes s -> scp p4 (hz_mbtowc s n ist ibo).
Proof. intros s n ist ibo B. unfold hz_mbtowc. cbv zeta. apply sc_hz_loop; [exact B|exact I]. Qed.
Lemma sc_iso2022_kr_loop : forall fuel, (forall count state1 state2 s n pwc ibo, bytes s -> okw pwc -> scp p4 (iso2022_kr_mbtowc_loop fuel count state1 state2 s n pwc ibo)).
Proof.
  induction fuel as [|fuel IH]; [repeat split; intros; exact I|]. rename IH into IH0. intros; cbn [iso2022_kr_mbtowc_loop];
    repeat sstep ltac:(first [first [apply IH0]; [solve [repeat apply bytes_skipn; assumption]|solve [leaf]]|kni]).
Qed.
Lemma sc_iso2022_kr : forall s n ist ibo, bytes s -> scp p4 (iso2022_kr_mbtowc s n ist ibo).
Proof. intros s n ist ibo B. unfold iso2022_kr_mbtowc. cbv zeta. apply sc_iso2022_kr_loop; [exact B|exact I]. Qed.
Lemma sc_iso2022_jp_loop : forall fuel, (forall count state s n pwc ibo, bytes s -> okw pwc -> scp p4 (iso2022_jp_mbtowc_loop fuel count state s n pwc ibo)) /\ (forall count s n pwc ibo, bytes s -> okw pwc -> scp p4 (iso2022_jp_mbtowc_j fuel count s n pwc ibo)).
Proof.
  induction fuel as [|fuel IH]; [repeat split; intros; exact I|]. destruct IH as (IH0 & IH1). repeat split; intros; cbn [iso2022_jp_mbtowc_loop iso2022_jp_mbtowc_j];
    repeat sstep ltac:(first [first [apply IH0|apply IH1]; [solve [repeat apply bytes_skipn; assumption]|solve [leaf]]|kni]).
Qed.
Lemma sc_iso2022_jp : forall s n ist ibo, bytes s -> scp p4 (iso2022_jp_mbtowc s n ist ibo).
Proof. intros s n ist ibo B. unfold iso2022_jp_mbtowc. cbv zeta. apply (proj1 (sc_iso2022_jp_loop _)); [exact B|exact I]. Qed.
Lemma sc_iso2022_jp1_loop : forall fuel, (forall count state s n pwc ibo, bytes s -> okw pwc -> scp p4 (iso2022_jp1_mbtowc_loop fuel count state s n pwc ibo)) /\ (forall count s n pwc ibo, bytes s -> okw pwc -> scp p4 (iso2022_jp1_mbtowc_j fuel count s n pwc ibo)).
Proof.
  induction fuel as [|fuel IH]; [repeat split; intros; exact I|]. destruct IH as (IH0 & IH1). repeat split; intros; cbn [iso2022_jp1_mbtowc_loop iso2022_jp1_mbtowc_j];
    repeat sstep ltac:(first [first [apply IH0|apply IH1]; [solve [repeat apply bytes_skipn; assumption]|solve [leaf]]|kni]).
Qed.
Lemma sc_iso2022_jp1 : forall s n ist ibo, bytes s -> scp p4 (iso2022_jp1_mbtowc s n ist ibo).
Proof. intros s n ist ibo B. unfold iso2022_jp1_mbtowc. cbv zeta. apply (proj1 (sc_iso2022_jp1_loop _)); [exact B|exact I]. Qed.
Lemma sc_iso2022_jp2_loop : forall fuel, (forall count state1 state2 s n pwc ibo, bytes s -> okw pwc -> scp p4 (iso2022_jp2_mbtowc_loop fuel count state1 state2 s n pwc ibo)) /\ (forall count state2 s n pwc ibo, bytes s -> okw pwc -> scp p4 (iso2022_jp2_mbtowc_j fuel count state2 s n pwc ibo)).
Proof.
  induction fuel as [|fuel IH]; [repeat split; intros; exact I|]. destruct IH as (IH0 & IH1). repeat split; intros; cbn [iso2022_jp2_mbtowc_loop iso2022_jp2_mbtowc_j];
    repeat sstep ltac:(first [first [apply IH0|apply IH1]; [solve [repeat apply bytes_skipn; assumption]|solve [leaf]]|kni]).
Qed.
Lemma sc_iso2022_jp2 : forall s n ist ibo, bytes s -> scp p4 (iso2022_jp2_mbtowc s n ist ibo).
Proof. intros s n ist ibo B. unfold iso2022_jp2_mbtowc. cbv zeta. apply (proj1 (sc_iso2022_jp2_loop _)); [exact B|exact I]. Qed.
Lemma sc_iso2022_cn_loop : forall fuel, (forall count state1 state2 state3 s n pwc ibo, bytes s -> okw pwc -> scp p4 (iso2022_cn_mbtowc_loop fuel count state1 state2 state3 s n pwc ibo)) /\ (forall count state1 state2 state3 x2 x3 s n pwc ibo, bytes s -> okw pwc -> scp p4 (iso2022_cn_mbtowc_j fuel count state1 state2 state3 x2 x3 s n pwc ibo)).
Proof.
  induction fuel as [|fuel IH]; [repeat split; intros; exact I|]. destruct IH as (IH0 & IH1). repeat split; intros; cbn [iso2022_cn_mbtowc_loop iso2022_cn_mbtowc_j];
    repeat sstep ltac:(first [first [apply IH0|apply IH1]; [solve [repeat apply bytes_skipn; assumption]|solve [leaf]]|kni]).
Qed.
Lemma sc_iso2022_cn : forall s n ist ibo, bytes s -> scp p4 (iso2022_cn_mbtowc s n ist ibo).
Proof. intros s n ist ibo B. unfold iso2022_cn_mbtowc. cbv zeta. apply (proj1 (sc_iso2022_cn_loop _)); [exact B|exact I]. Qed.
Lemma sc_iso2022_cn_ext_loop : forall fuel, (forall count state1 state2 state3 state4 s n pwc ibo, bytes s -> okw pwc -> scp p4 (iso2022_cn_ext_mbtowc_loop fuel count state1 state2 state3 state4 s n pwc ibo)) /\ (forall count state1 state2 state3 state4 x2 x3 s n pwc ibo, bytes s -> okw pwc -> scp p4 (iso2022_cn_ext_mbtowc_j fuel count state1 state2 state3 state4 x2 x3 s n pwc ibo)) /\ (forall count state1 state2 state3 state4 x2 x3 s n pwc ibo, bytes s -> okw pwc -> scp p4 (iso2022_cn_ext_mbtowc_j2 fuel count state1 state2 state3 state4 x2 x3 s n pwc ibo)).
Proof.
  induction fuel as [|fuel IH]; [repeat split; intros; exact I|]. destruct IH as (IH0 & IH1 & IH2). repeat split; intros; cbn [iso2022_cn_ext_mbtowc_loop iso2022_cn_ext_mbtowc_j iso2022_cn_ext_mbtowc_j2];
    repeat sstep ltac:(first [first [apply IH0|apply IH1|apply IH2]; [solve [repeat apply bytes_skipn; assumption]|solve [leaf]]|kni]).
Qed.
Lemma sc_iso2022_cn_ext : forall s n ist ibo, bytes s -> scp p4 (iso2022_cn_ext_mbtowc s n ist ibo).
Proof. intros s n ist ibo B. unfold iso2022_cn_ext_mbtowc. cbv zeta. apply (proj1 (sc_iso2022_cn_ext_loop _)); [exact B|exact I]. Qed.
Lemma sc_iso2022_jpms_loop : forall fuel, (forall count state s n pwc ibo, bytes s -> okw pwc -> scp p4 (iso2022_jpms_mbtowc_loop fuel count state s n pwc ibo)) /\ (forall count s n pwc ibo, bytes s -> okw pwc -> scp p4 (iso2022_jpms_mbtowc_j fuel count s n pwc ibo)) /\ (forall count state s n pwc ibo, bytes s -> okw pwc -> scp p4 (iso2022_jpms_mbtowc_j2 fuel count state s n pwc ibo)) /\ (forall count state s n pwc ibo, bytes s -> okw pwc -> scp p4 (iso2022_jpms_mbtowc_j3 fuel count state s n pwc ibo)).
Proof.
  induction fuel as [|fuel IH]; [repeat split; intros; exact I|]. destruct IH as (IH0 & IH1 & IH2 & IH3). repeat split; intros; cbn [iso2022_jpms_mbtowc_loop iso2022_jpms_mbtowc_j iso2022_jpms_mbtowc_j2 iso2022_jpms_mbtowc_j3];
    repeat sstep ltac:(first [first [apply IH0|apply IH1|apply IH2|apply IH3]; [solve [repeat apply bytes_skipn; assumption]|solve [leaf]]|kni]).
Qed.
Lemma sc_iso2022_jpms : forall s n ist ibo, bytes s -> scp p4 (iso2022_jpms_mbtowc s n ist ibo).
Proof. intros s n ist ibo B. unfold iso2022_jpms_mbtowc. cbv zeta. apply (proj1 (sc_iso2022_jpms_loop _)); [exact B|exact I]. Qed.
