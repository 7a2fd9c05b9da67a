(** The decoders of the character sets behind ISO-2022, HZ, EUC-TW and CP943 store only scalar values. *)
From Coq Require Import ZArith List Bool Lia.
From Verif Require Import Base UniSpec Contract ScLib Conv_uni Conv_set_ko Conv_set_zh Conv_set_ja Conv_sb Conv_cjk Conv_iso2022.
Import ListNotations.
Open Scope Z_scope.
Create HintDb sc.
Ltac kn := solve [eauto 4 using bytes_skipn with sc nocore].
Lemma sc_ksc5601 : forall s n, scp p2 (ksc5601_mbtowc s n).
Proof. intros s n. unfold ksc5601_mbtowc. repeat sstep kn. Qed.
#[export] Hint Resolve sc_ksc5601 : sc.
Lemma sc_gb2312 : forall s n, scp p2 (gb2312_mbtowc s n).
Proof. intros s n. unfold gb2312_mbtowc. repeat sstep kn. Qed.
#[export] Hint Resolve sc_gb2312 : sc.
Lemma sc_jisx0208 : forall s n, scp p2 (jisx0208_mbtowc s n).
Proof. intros s n. unfold jisx0208_mbtowc. repeat sstep kn. Qed.
#[export] Hint Resolve sc_jisx0208 : sc.
Lemma sc_jisx0212 : forall s n, scp p2 (jisx0212_mbtowc s n).
Proof. intros s n. unfold jisx0212_mbtowc. repeat sstep kn. Qed.
#[export] Hint Resolve sc_jisx0212 : sc.
Lemma sc_isoir165ext : forall s n, scp p2 (isoir165ext_mbtowc s n).
Proof. intros s n. unfold isoir165ext_mbtowc. repeat sstep kn. Qed.
#[export] Hint Resolve sc_isoir165ext : sc.
Lemma sc_cns11643_1 : forall s n, scp p2 (cns11643_1_mbtowc s n).
Proof. intros s n. unfold cns11643_1_mbtowc. repeat sstep kn. Qed.
#[export] Hint Resolve sc_cns11643_1 : sc.
Lemma sc_cns11643_2 : forall s n, scp p2 (cns11643_2_mbtowc s n).
Proof. intros s n. unfold cns11643_2_mbtowc. repeat sstep kn. Qed.
#[export] Hint Resolve sc_cns11643_2 : sc.
Lemma sc_cns11643_3 : forall s n, scp p2 (cns11643_3_mbtowc s n).
Proof. intros s n. unfold cns11643_3_mbtowc. repeat sstep kn. Qed.
#[export] Hint Resolve sc_cns11643_3 : sc.
Lemma sc_cns11643_4 : forall s n, scp p2 (cns11643_4_mbtowc s n).
Proof. intros s n. unfold cns11643_4_mbtowc. repeat sstep kn. Qed.
#[export] Hint Resolve sc_cns11643_4 : sc.
Lemma sc_cns11643_5 : forall s n, scp p2 (cns11643_5_mbtowc s n).
Proof. intros s n. unfold cns11643_5_mbtowc. repeat sstep kn. Qed.
#[export] Hint Resolve sc_cns11643_5 : sc.
Lemma sc_cns11643_6 : forall s n, scp p2 (cns11643_6_mbtowc s n).
Proof. intros s n. unfold cns11643_6_mbtowc. repeat sstep kn. Qed.
#[export] Hint Resolve sc_cns11643_6 : sc.
Lemma sc_cns11643_7 : forall s n, scp p2 (cns11643_7_mbtowc s n).
Proof. intros s n. unfold cns11643_7_mbtowc. repeat sstep kn. Qed.
#[export] Hint Resolve sc_cns11643_7 : sc.
Lemma sc_cns11643_15 : forall s n, scp p2 (cns11643_15_mbtowc s n).
Proof. intros s n. unfold cns11643_15_mbtowc. repeat sstep kn. Qed.
#[export] Hint Resolve sc_cns11643_15 : sc.
Lemma sc_cp50221_0208_ext : forall s n, scp p2 (cp50221_0208_ext_mbtowc s n).
Proof. intros s n. unfold cp50221_0208_ext_mbtowc. repeat sstep kn. Qed.
#[export] Hint Resolve sc_cp50221_0208_ext : sc.
Lemma sc_cp50221_0212_ext : forall s n, scp p2 (cp50221_0212_ext_mbtowc s n).
Proof. intros s n. unfold cp50221_0212_ext_mbtowc. repeat sstep kn. Qed.
#[export] Hint Resolve sc_cp50221_0212_ext : sc.
Lemma sc_cp932ext : forall s n, scp p2 (cp932ext_mbtowc s n).
Proof. intros s n. unfold cp932ext_mbtowc. repeat sstep kn. Qed.
#[export] Hint Resolve sc_cp932ext : sc.
Lemma sc_ascii : forall s n, bytes s -> scp p2 (ascii_mbtowc s n).
Proof. intros s n B. unfold ascii_mbtowc. repeat sstep kn. Qed.
#[export] Hint Resolve sc_ascii : sc.
Lemma sc_jisx0201 : forall s n, bytes s -> scp p2 (jisx0201_mbtowc s n).
Proof. intros s n B. unfold jisx0201_mbtowc. repeat sstep kn. Qed.
#[export] Hint Resolve sc_jisx0201 : sc.
Lemma sc_iso646_cn : forall s n, bytes s -> scp p2 (iso646_cn_mbtowc s n).
Proof. intros s n B. unfold iso646_cn_mbtowc. repeat sstep kn. Qed.
#[export] Hint Resolve sc_iso646_cn : sc.
Lemma sc_isoir165 : forall s n, bytes s -> scp p2 (isoir165_mbtowc s n).
Proof. intros s n B. unfold isoir165_mbtowc. repeat sstep kn. Qed.
#[export] Hint Resolve sc_isoir165 : sc.
Lemma sc_iso8859_1 : forall s n, bytes s -> scp p2 (iso8859_1_mbtowc s n).
Proof. intros s n B. unfold iso8859_1_mbtowc. repeat sstep kn. Qed.
#[export] Hint Resolve sc_iso8859_1 : sc.
Lemma sc_iso8859_7 : forall s n, bytes s -> scp p2 (iso8859_7_mbtowc s n).
Proof. intros s n B. unfold iso8859_7_mbtowc. repeat sstep kn. Qed.
#[export] Hint Resolve sc_iso8859_7 : sc.
Lemma sc_euc_tw : forall s n, bytes s -> scp p2 (euc_tw_mbtowc s n).
Proof. intros s n B. unfold euc_tw_mbtowc. repeat sstep kn. Qed.
#[export] Hint Resolve sc_euc_tw : sc.
Lemma sc_cp932 : forall s n, bytes s -> scp p2 (cp932_mbtowc s n).
Proof. intros s n B. unfold cp932_mbtowc. repeat sstep kn. Qed.
#[export] Hint Resolve sc_cp932 : sc.
