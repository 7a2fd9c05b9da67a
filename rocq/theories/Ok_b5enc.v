(** CP950 and BIG5-2003 encoders: many special cases in front of a common tail. *)
From Coq Require Import ZArith List Bool Lia.
From Verif Require Import Base Loop Contract LoopLib Reflect Sx Rng EncLib DecLib TabLib SbLib.
From Verif Require Import TabIn_sb TabIn_cjk.
From Verif Require Import Conv_uni Conv_sb Conv_set_ja Conv_set_zh Conv_set_ko Conv_cjk Encodings Leaf DLeaf DCjk CjkLib.
Import ListNotations.
Open Scope Z_scope.

(** A converter, as a function of the room, refuses the character, or writes one byte, or two bytes. *)
Definition room_ok (g : nat -> res (Z * wlog)) : Prop :=
  (forall n, (1 <= n)%nat -> g n = Ok (-1, [])) \/
  (exists a, 0 <= a < 256 /\ forall n, (1 <= n)%nat -> g n = Ok (1, [(0%nat, a)])) \/
  (exists a b, 0 <= a < 256 /\ 0 <= b < 256 /\ g 1%nat = Ok (-2, []) /\ forall n, (2 <= n)%nat -> g n = Ok (2, [(1%nat, b); (0%nat, a)])).
Lemma room_ill : forall g, (forall n, (1 <= n)%nat -> g n = Ok (-1, [])) -> room_ok g.
Proof. intros g H. now left. Qed.
Lemma room_two : forall g a b, 0 <= a < 256 -> 0 <= b < 256 -> g 1%nat = Ok (-2, []) -> (forall n, (2 <= n)%nat -> g n = Ok (2, [(1%nat, b); (0%nat, a)])) -> room_ok g.
Proof. intros g a b A B G1 G2. right. right. exists a, b. auto. Qed.
Lemma enc_room : forall e f, f_wc e = wc0 f -> f_reset e = None -> (forall wc, ucs4 wc -> room_ok (f wc)) -> enc_ok e oinv0 ucs4.
Proof.
  intros e f E R H. apply enc_ok_intro; [reflexivity| |intros ost _; rewrite R; exact I].
  intros ost wc O U. destruct (H wc U) as [L|[(a & A & L)|(a & b & A & B & L1 & L)]].
  - apply (egoal_ill _ _ _ _ 1%nat); [unfold MAXNEED; lia|intros; lia|].
    intros n Hn. rewrite E. unfold wc0. rewrite L by lia. split; [reflexivity|split; [constructor|reflexivity]].
  - apply (egoal_ok _ _ _ _ [a] ost); [unfold MAXNEED; cbn; lia|exact O| |].
    + cbn [length]. intros n Hn. lia.
    + cbn [length]. intros n _ Hn. rewrite E. unfold wc0. rewrite L by lia. split; [reflexivity|split; [|reflexivity]].
      apply writes_intro; [|reflexivity|]; repeat constructor; cbn; lia.
  - apply (egoal_ok _ _ _ _ [a; b] ost); [unfold MAXNEED; cbn; lia|exact O| |].
    + cbn [length]. intros n Hn. replace n with 1%nat by lia. rewrite E. unfold wc0. rewrite L1. split; [reflexivity|split; [constructor|reflexivity]].
    + cbn [length]. intros n _ Hn. rewrite E. unfold wc0. rewrite L by lia. split; [reflexivity|split; [|reflexivity]].
      apply writes_intro; [|reflexivity|]; repeat constructor; cbn; lia.
Qed.
(** The characters put into buf by the special cases. *)
Definition pre_ok (buf : wlog) (ret : Z) : Prop :=
  (ret = -1 /\ buf = []) \/ exists a b, 0 <= a < 256 /\ 0 <= b < 256 /\ ret = 2 /\ buf = [(1%nat, b); (0%nat, a)].
Lemma pre_none : pre_ok [] (-1). Proof. now left. Qed.
Lemma pre_two : forall a b, 0 <= a < 256 -> 0 <= b < 256 -> pre_ok [(1%nat, b); (0%nat, a)] 2.
Proof. intros a b A B. right. exists a, b. auto. Qed.
Lemma big5_two : forall wc, ucs4 wc -> big5_wctomb wc 2 = Ok (-1, []) \/ exists a b, 0 <= a < 256 /\ 0 <= b < 256 /\ big5_wctomb wc 2 = Ok (2, [(1%nat, b); (0%nat, a)]).
Proof. intros wc U. destruct (leaf_ok_sound _ _ _ (leaf_big5 wc U)) as [L|(a & b & A & L)]; [now left|]. apply inr2 in A. right. exists a, b. repeat split; try lia. exact L. Qed.
Lemma cp950ext_two : forall wc, ucs4 wc -> cp950ext_wctomb wc 2 = Ok (-1, []) \/ exists a b, 0 <= a < 256 /\ 0 <= b < 256 /\ cp950ext_wctomb wc 2 = Ok (2, [(1%nat, b); (0%nat, a)]).
Proof. intros wc U. destruct (leaf_ok_sound _ _ _ (leaf_cp950ext wc U)) as [L|(a & b & A & L)]; [now left|]. apply inr2 in A. right. exists a, b. repeat split; try lia. exact L. Qed.

Lemma b5_tail4 : forall buf ret, pre_ok buf ret -> room_ok (fun n => big5_2003_wctomb_j4 buf ret n []).
Proof.
  intros buf ret [[-> ->]|(a & b & A & B & -> & ->)].
  - now left.
  - apply (room_two _ a b A B); [reflexivity|]. intros [|[|n]] Hn; try lia. reflexivity.
Qed.
Lemma b5_tail : forall buf ret wc, ucs4 wc -> pre_ok buf ret -> room_ok (fun n => big5_2003_wctomb_j buf ret wc n []).
Proof.
  intros buf ret wc U [[-> ->]|(a & b & A & B & -> & ->)]; unfold big5_2003_wctomb_j.
  - change (-1 =? -1) with true. cbv iota. destruct (big5_two wc U) as [E|(a & b & A & B & E)]; rewrite E.
    + exact (b5_tail4 [] (-1) pre_none).
    + exact (b5_tail4 _ 2 (pre_two a b A B)).
  - exact (b5_tail4 _ 2 (pre_two a b A B)).
Qed.
Lemma cp950_tail5 : forall buf wc, ucs4 wc -> room_ok (fun n => cp950_wctomb_j5 buf wc n []).
Proof.
  intros buf wc U. unfold cp950_wctomb_j5. destruct (cp950ext_two wc U) as [E|(a & b & A & B & E)]; rewrite E.
  - now left.
  - apply (room_two _ a b A B); [reflexivity|]. intros [|[|n]] Hn; try lia. reflexivity.
Qed.
Lemma cp950_tail3 : forall buf ret wc, ucs4 wc -> pre_ok buf ret -> room_ok (fun n => cp950_wctomb_j3 buf ret wc n []).
Proof.
  intros buf ret wc U [[-> ->]|(a & b & A & B & -> & ->)].
  - exact (cp950_tail5 _ wc U).
  - unfold cp950_wctomb_j3. change (negb (2 =? -1)) with true. change (negb (2 =? 2)) with false. cbv iota. unfold lrd. cbn [lfind Nat.eqb].
    assert (T : forall x, x = a -> room_ok (fun n => cp950_wctomb_j4 [(1%nat, b); (0%nat, a)] wc x n [])).
    { intros x ->. unfold cp950_wctomb_j4. destruct (a =? 0xc7); [exact (cp950_tail5 _ wc U)|].
      apply (room_two _ a b A B); [reflexivity|]. intros [|[|n]] Hn; try lia. reflexivity. }
    destruct (a =? 0xc6); [|now apply T]. destruct (b >=? 0xa1); [exact (cp950_tail5 _ wc U)|now apply T].
Qed.
Lemma cp950_tail : forall buf ret wc, ucs4 wc -> pre_ok buf ret -> room_ok (fun n => cp950_wctomb_j buf ret wc n []).
Proof.
  intros buf ret wc U [[-> ->]|(a & b & A & B & -> & ->)]; unfold cp950_wctomb_j.
  - change (-1 =? -1) with true. cbv iota. destruct (big5_two wc U) as [E|(a & b & A & B & E)]; rewrite E.
    + exact (cp950_tail3 [] (-1) wc U pre_none).
    + exact (cp950_tail3 _ 2 wc U (pre_two a b A B)).
  - exact (cp950_tail3 _ 2 wc U (pre_two a b A B)).
Qed.
Lemma mod157 : forall i, 0 <= i -> 0 <= i mod 0x9d + (if i mod 0x9d <? 0x3f then 0x40 else 0x62) < 256.
Proof. intros i H. pose proof (Z.mod_pos_bound i 0x9d ltac:(lia)). destruct (i mod 0x9d <? 0x3f); lia. Qed.
Lemma cp950_tail2 : forall wc, ucs4 wc -> room_ok (fun n => cp950_wctomb_j2 [] (-1) wc n []).
Proof.
  intros wc U. unfold cp950_wctomb_j2. destruct (u32 (wc - 0xe000) <? 0x16b1) eqn:E; cbv iota zeta; [|exact (cp950_tail [] (-1) wc U pre_none)].
  unfold wrb. cbn [Nat.ltb Nat.leb]. apply cp950_tail; [exact U|]. apply pre_two; [apply u8_byte|]. apply mod157. apply Z.mod_pos_bound. reflexivity.
Qed.
Lemma b5_tail2 : forall wc, ucs4 wc -> room_ok (fun n => big5_2003_wctomb_j2 [] (-1) wc n []).
Proof.
  intros wc U. unfold big5_2003_wctomb_j2. destruct (u32 (wc - 0xe000) <? 0x16b1) eqn:E; cbv iota zeta; [|exact (b5_tail [] (-1) wc U pre_none)].
  unfold wrb. cbn [Nat.ltb Nat.leb]. apply b5_tail; [exact U|]. apply pre_two; [apply u8_byte|]. apply mod157. apply Z.mod_pos_bound. reflexivity.
Qed.

Ltac b5_pre := first [exact pre_none | apply pre_two; first [lia | apply u8_byte | solve [ifs_lia]]].
Ltac b5_step U :=
  cbv zeta;
  lazymatch goal with
  | |- room_ok (fun n => Ok (-1, _)) => now left
  | |- room_ok (fun n => if (?p ||| ?q) then _ else _) => destruct (p ||| q)
  | |- room_ok (fun n => if (?p &&& ?q) then _ else _) => let H := fresh in destruct (p &&& q) eqn:H; [apply andb_true_iff in H; destruct H; rewrite ?Z.geb_leb in *|]
  | |- room_ok (fun n => if ?x =? ?y then _ else _) => destruct (x =? y)
  | |- room_ok (fun n => if ?x <=? ?y then _ else _) => destruct (Z.leb_spec x y)
  | |- room_ok (fun n => if ?x <? ?y then _ else _) => destruct (Z.ltb_spec x y)
  | |- room_ok (fun n => big5_2003_wctomb_j3 ?buf ?w n ?r) => change (room_ok (fun n => big5_2003_wctomb_j buf 2 w n r))
  | |- room_ok (fun n => wrb 2 ?b ?o ?v _) => unfold wrb at 1; cbn [Nat.ltb Nat.leb]
  | |- room_ok (fun n => cp950_wctomb_j2 _ _ _ n _) => exact (cp950_tail2 _ U)
  | |- room_ok (fun n => big5_2003_wctomb_j2 _ _ _ n _) => exact (b5_tail2 _ U)
  | |- room_ok (fun n => cp950_wctomb_j _ _ _ n _) => apply (cp950_tail _ _ _ U); b5_pre
  | |- room_ok (fun n => big5_2003_wctomb_j _ _ _ n _) => apply (b5_tail _ _ _ U); b5_pre
  | |- room_ok (fun n => tget ?t ?i _) => let H := tab_ti t in let v := fresh "v" in let E := fresh "E" in let R := fresh "R" in
      destruct (H i ltac:(lia)) as (v & E & R); unfold tget; rewrite E
  end.
Lemma enc_cp950_ok : enc_ok enc_cp950 oinv0 ucs4.
Proof.
  apply (enc_room _ cp950_wctomb); [reflexivity|reflexivity|]. intros wc U. unfold cp950_wctomb, ascii_wctomb. cbv zeta.
  destruct (Z.ltb_spec wc 128); cbn [bind]; [right; left; exists wc; unfold ucs4 in U; split; [lia|reflexivity]|].
  change (lapp [] 0 []) with (@nil (nat * Z)). change (negb (-1 =? -1)) with false. cbv iota. 
  repeat b5_step U.
Qed.
Lemma enc_big5_2003_ok : enc_ok enc_big5_2003 oinv0 ucs4.
Proof.
  apply (enc_room _ big5_2003_wctomb); [reflexivity|reflexivity|]. intros wc U. unfold big5_2003_wctomb, ascii_wctomb. cbv zeta.
  destruct (Z.ltb_spec wc 128); cbn [bind]; [right; left; exists wc; unfold ucs4 in U; split; [lia|reflexivity]|].
  change (lapp [] 0 []) with (@nil (nat * Z)). change (negb (-1 =? -1)) with false. cbv iota. 
  repeat b5_step U.
Qed.
