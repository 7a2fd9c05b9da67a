(** The decoders of GB18030 store only scalar values. The characters of the four byte codes are found by search in a table of ranges: all 39420 codes are tried. *)
From Coq Require Import ZArith List Bool Lia.
From Verif Require Import Base UniSpec Contract UniProps ScLib Sc_sets Sc_uni Conv_uni Conv_set_zh Conv_sb Conv_cjk.
Import ListNotations.
Open Scope Z_scope.

Fixpoint upto (k : nat) (i : Z) (q : Z -> bool) : bool := match k with O => true | S k => q i && upto k (i + 1) q end.
Lemma upto_ok : forall k i q, upto k i q = true -> forall j, i <= j < i + Z.of_nat k -> q j = true.
Proof.
  induction k as [|k IH]; intros i q H j R; [lia|]. cbn [upto] in H. apply andb_true_iff in H. destruct H as (H1 & H2).
  destruct (Z.eq_dec j i) as [->|]; [exact H1|]. apply (IH _ _ H2). lia.
Qed.
Definition scb (x : res (Z * option Z)) : bool := match x with Ok (_, Some w) => scalar w | _ => true end.
Lemma scb_ok : forall x, scb x = true -> scp p2 x.
Proof. intros [(c, [w|])| | |] H; try exact I; exact H. Qed.
Lemma gb2005_all : upto (Z.to_nat 39420) 0 (fun i => scb (gb18030_2005_uni_mbtowc_loop 64 i 0 0xcd None)) = true.
Proof. vm_compute. reflexivity. Qed.
Lemma gb2022_all : upto (Z.to_nat 39420) 0 (fun i => scb (gb18030_2022_uni_mbtowc_loop 64 i 0 0xcd None)) = true.
Proof. vm_compute. reflexivity. Qed.
Lemma sc_gb2005_loop : forall i, 0 <= i <= 0x99fb -> scp p2 (gb18030_2005_uni_mbtowc_loop 64 i 0 0xcd None).
Proof. intros i R. apply scb_ok. apply (upto_ok _ _ _ gb2005_all). rewrite Z2Nat.id; lia. Qed.
Lemma sc_gb2022_loop : forall i, 0 <= i <= 0x99fb -> scp p2 (gb18030_2022_uni_mbtowc_loop 64 i 0 0xcd None).
Proof. intros i R. apply scb_ok. apply (upto_ok _ _ _ gb2022_all). rewrite Z2Nat.id; lia. Qed.
Ltac knb := idtac; lazymatch goal with
  | |- scp _ (gb18030_2005_uni_mbtowc_loop _ _ _ _ _) => apply sc_gb2005_loop; conds; lia
  | |- scp _ (gb18030_2022_uni_mbtowc_loop _ _ _ _ _) => apply sc_gb2022_loop; conds; lia
  | _ => kn
  end.
Lemma sc_gbkext1 : forall s n, scp p2 (gbkext1_mbtowc s n).
Proof. intros s n. unfold gbkext1_mbtowc. repeat sstep knb. Qed.
#[export] Hint Resolve sc_gbkext1 : sc.
Lemma sc_gbkext2 : forall s n, scp p2 (gbkext2_mbtowc s n).
Proof. intros s n. unfold gbkext2_mbtowc. repeat sstep knb. Qed.
#[export] Hint Resolve sc_gbkext2 : sc.
Lemma sc_cp936ext : forall s n, scp p2 (cp936ext_mbtowc s n).
Proof. intros s n. unfold cp936ext_mbtowc. repeat sstep knb. Qed.
#[export] Hint Resolve sc_cp936ext : sc.
Lemma sc_gbk : forall s n, scp p2 (gbk_mbtowc s n).
Proof. intros s n. unfold gbk_mbtowc. repeat sstep knb. Qed.
#[export] Hint Resolve sc_gbk : sc.
Lemma sc_gb18030_2005_ext : forall s n, scp p2 (gb18030_2005_ext_mbtowc s n).
Proof. intros s n. unfold gb18030_2005_ext_mbtowc. repeat sstep knb. Qed.
#[export] Hint Resolve sc_gb18030_2005_ext : sc.
Lemma sc_gb18030_2022_ext : forall s n, scp p2 (gb18030_2022_ext_mbtowc s n).
Proof. intros s n. unfold gb18030_2022_ext_mbtowc. repeat sstep knb. Qed.
#[export] Hint Resolve sc_gb18030_2022_ext : sc.
Lemma sc_gb18030_2005_uni : forall s n, bytes s -> scp p2 (gb18030_2005_uni_mbtowc s n).
Proof. intros s n B. unfold gb18030_2005_uni_mbtowc. repeat sstep knb. Qed.
#[export] Hint Resolve sc_gb18030_2005_uni : sc.
Lemma sc_gb18030_2022_uni : forall s n, bytes s -> scp p2 (gb18030_2022_uni_mbtowc s n).
Proof. intros s n B. unfold gb18030_2022_uni_mbtowc. repeat sstep knb. Qed.
#[export] Hint Resolve sc_gb18030_2022_uni : sc.
Ltac knc := idtac; lazymatch goal with
  | |- scp _ (ascii_mbtowc _ _) => apply sc_ascii; assumption
  | |- scp _ (gbk_mbtowc _ _) => apply sc_gbk
  | |- scp _ (gb18030_2005_ext_mbtowc _ _) => apply sc_gb18030_2005_ext
  | |- scp _ (gb18030_2022_ext_mbtowc _ _) => apply sc_gb18030_2022_ext
  | |- scp _ (gb18030_2005_uni_mbtowc _ _) => apply sc_gb18030_2005_uni; assumption
  | |- scp _ (gb18030_2022_uni_mbtowc _ _) => apply sc_gb18030_2022_uni; assumption
  end.
Lemma sc_gb18030_2005 : forall s n, bytes s -> scp p2 (gb18030_2005_mbtowc s n).
Proof. intros s n B. unfold gb18030_2005_mbtowc. repeat sstep knc. Qed.
Lemma sc_gb18030_2022 : forall s n, bytes s -> scp p2 (gb18030_2022_mbtowc s n).
Proof. intros s n B. unfold gb18030_2022_mbtowc. repeat sstep knc. Qed.
