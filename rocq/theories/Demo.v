(** Concrete descriptors for the examples and counterexamples. *)
From Coq Require Import ZArith List Bool Lia.
From Verif Require Import Base Indexes Loop Contract LoopLib LoopProps Spec SpecProps Encodings Api AllOk Public.
Import ListNotations.
Open Scope Z_scope.

Definition no_funcs : funcs := mkFuncs (fun _ _ _ _ => UB) None (fun _ _ _ => UB) None.
Definition no_conv : conv := mkConv 0 no_funcs 0 0 0 no_funcs 0 0.
(** The descriptor that reiconv_open_from_index gives. *)
Definition opened (from to flags : Z) : conv :=
  match reiconv_open_from_index true from to flags with Ok (inl cd) => cd | _ => no_conv end.
(** The result of a call that is known to return. *)
Definition no_cres : cres := mkCres (Num 0) [] [] 0 0 no_conv.
Definition out_of (x : res cres) : cres := match x with Ok r => r | _ => no_cres end.
Definition call (cd : conv) (s : list Z) (room : nat) : cres := out_of (reiconv_iconv cd (Some s) (Some (repeat 0 room)) room).
Definition flush (cd : conv) (room : nat) : cres := out_of (reiconv_iconv cd None (Some (repeat 0 room)) room).
(** What a program sees of a call. *)
Definition seen (r : cres) : ret * list Z * list Z := (r_ret r, produced r, r_in r).

Definition inb_ (i : Z) (l : list Z) : bool := existsb (Z.eqb i) l.
Definition sourceb (i : Z) : bool := (0 <=? i) && (i <? 198) && negb (inb_ i not_sources).
Definition targetb (i : Z) : bool := (0 <=? i) && (i <? 198) && negb (inb_ i not_targets).
Lemma inb_spec : forall i l, inb_ i l = false -> ~ In i l.
Proof.
  intros i l H N. assert (inb_ i l = true); [|congruence]. unfold inb_. apply existsb_exists. exists i. split; [exact N|apply Z.eqb_refl].
Qed.
Lemma num_encodings : length all_encodings = 198%nat.
Proof. vm_compute. reflexivity. Qed.
Lemma sourceb_ok : forall i, sourceb i = true -> source i.
Proof.
  intros i H. unfold sourceb in H. apply andb_prop in H. destruct H as (H & N). apply andb_prop in H. destruct H as (A & B).
  split; [rewrite num_encodings; lia|]. apply inb_spec. now apply negb_true_iff.
Qed.
Lemma targetb_ok : forall i, targetb i = true -> target i.
Proof.
  intros i H. unfold targetb in H. apply andb_prop in H. destruct H as (H & N). apply andb_prop in H. destruct H as (A & B).
  split; [rewrite num_encodings; lia|]. apply inb_spec. now apply negb_true_iff.
Qed.
Lemma open_ok : forall i j fl, 0 <= i < 198 -> 0 <= j < 198 -> reiconv_open_from_index true i j fl = Ok (inl (opened i j fl)).
Proof.
  intros i j fl Hi Hj. unfold opened, reiconv_open_from_index, encoding_at.
  destruct (Z.ltb_spec i 0); [lia|]. destruct (Z.ltb_spec j 0); [lia|].
  destruct (nth_error all_encodings (Z.to_nat i)) as [a|] eqn:A; [|exfalso; apply nth_error_None in A; rewrite num_encodings in A; lia].
  destruct (nth_error all_encodings (Z.to_nat j)) as [b|] eqn:B; [|exfalso; apply nth_error_None in B; rewrite num_encodings in B; lia].
  reflexivity.
Qed.
Lemma opened_reachable : forall i j fl, sourceb i = true -> targetb j = true -> reachable (opened i j fl).
Proof.
  intros i j fl S T. pose proof (sourceb_ok _ S) as S'. pose proof (targetb_ok _ T) as T'.
  eapply reach_open; [exact S'|exact T'|]. destruct S' as (S1 & _), T' as (T1 & _). rewrite num_encodings in S1, T1. apply open_ok; lia.
Qed.
Definition byteb (b : Z) : bool := (0 <=? b) && (b <? 256).
Lemma input_ok : forall s, forallb byteb s && (Z.of_nat (length s) <=? LIM) = true -> input s.
Proof.
  intros s H. apply andb_prop in H. destruct H as (A & B). split; [|lia]. apply Forall_forall. intros x X.
  rewrite forallb_forall in A. specialize (A x X). unfold byteb in A. unfold byte. lia.
Qed.
Lemma call_ok : forall cd s room, reachable cd -> input s -> reiconv_iconv cd (Some s) (Some (repeat 0 room)) room = Ok (call cd s room).
Proof.
  intros cd s room H I. destruct (iconv_meets_spec cd s (repeat 0 room) room H I) as (r & E & _); [rewrite repeat_length; lia|].
  unfold call. now rewrite E.
Qed.
Lemma flush_ok : forall cd room, reachable cd -> (1 <= room)%nat -> reiconv_iconv cd None (Some (repeat 0 room)) room = Ok (flush cd room).
Proof.
  intros cd room H I. destruct (flush_meets_spec cd (repeat 0 room) room H) as (r & E & _); [rewrite repeat_length; lia|now left|].
  unfold flush. now rewrite E.
Qed.
Lemma call_reachable : forall cd s room, reachable cd -> input s -> reachable (r_cd (call cd s room)).
Proof. intros cd s room H I. eapply reach_iconv; [exact H|exact I| |apply call_ok; auto]. now rewrite repeat_length. Qed.
Lemma flush_reachable : forall cd room, reachable cd -> (1 <= room)%nat -> reachable (r_cd (flush cd room)).
Proof. intros cd room H L. eapply reach_flush; [exact H| |apply flush_ok; auto]. rewrite repeat_length. lia. Qed.
Lemma room_ok : forall room, (room <= length (repeat 0%Z room))%nat.
Proof. intros. now rewrite repeat_length. Qed.
Ltac inp := apply input_ok; vm_compute; reflexivity.
Ltac opn := apply opened_reachable; vm_compute; reflexivity.
Ltac run := vm_compute; reflexivity.

(** UTF-8 to ISO-8859-1, plain and discarding. *)
Definition u8_latin1 : conv := opened ei_utf8 ei_iso8859_1 0.
Definition u8_latin1_ignore : conv := opened ei_utf8 ei_iso8859_1 REICONV_DISCARD_ILSEQ.
(** UTF-8 to ISO-2022-JP (shift sequences), ISO-2022-JP to UTF-8. *)
Definition u8_jp : conv := opened ei_utf8 ei_iso2022_jp 0.
Definition jp_u8 : conv := opened ei_iso2022_jp ei_utf8 0.
(** CP1255 holds back Hebrew letters that may take a point. *)
Definition cp1255_iso8 : conv := opened ei_cp1255 ei_iso8859_8 0.
Definition cp1255_u8 : conv := opened ei_cp1255 ei_utf8 0.
Lemma r_u8_latin1 : reachable u8_latin1. Proof. opn. Qed.
Lemma r_u8_latin1_ignore : reachable u8_latin1_ignore. Proof. opn. Qed.
Lemma r_u8_jp : reachable u8_jp. Proof. opn. Qed.
Lemma r_jp_u8 : reachable jp_u8. Proof. opn. Qed.
Lemma r_cp1255_iso8 : reachable cp1255_iso8. Proof. opn. Qed.
Lemma r_cp1255_u8 : reachable cp1255_u8. Proof. opn. Qed.
