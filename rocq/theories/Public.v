(** Descriptors that a program can obtain through the API, and what the API calls do with them. *)
From Coq Require Import ZArith List Bool Lia.
From Verif Require Import Base Indexes Loop Contract LoopLib LoopProps Spec SpecProps Encodings Api AllOk.
Import ListNotations.
Open Scope Z_scope.

(** Encoding indexes a descriptor may be opened with in the theorems. *)
Definition source (i : Z) : Prop := 0 <= i < Z.of_nat (length all_encodings) /\ ~ In i not_sources.
Definition target (i : Z) : Prop := 0 <= i < Z.of_nat (length all_encodings) /\ ~ In i not_targets.

(** A legal input: bytes, at most LIM of them. *)
Definition input (s : list Z) : Prop := bytes s /\ Z.of_nat (length s) <= LIM.

Definition skipping (cd : conv) : bool := negb (discard_ilseq cd =? 0).
Definition unit_of (cd : conv) : nat := Z.to_nat (ei_unit (iindex cd)).
(** The character the descriptor holds back (a base character waiting for a combining one). *)
Definition pending (cd : conv) : list Z := held (ifuncs cd) (istate cd).

(** What the bytes s mean for the descriptor, and what it writes for the characters cs. *)
Definition rd (cd : conv) (s cs : list Z) (st : stop) (rest : list Z) (i : Z * Z) : Prop :=
  reads (ifuncs cd) (unit_of cd) (skipping cd) s (cd_i cd) cs st rest i.
(** The characters cs take exactly the bytes of s before r. *)
Definition tk (cd : conv) (s cs r : list Z) : Prop := exists i, takes (ifuncs cd) (unit_of cd) (skipping cd) s (cd_i cd) cs r i.
Definition wr (cd : conv) (cs : list Z) : list Z * nat * Z * list Z := writes_all (ofuncs cd) (skipping cd) cs (ostate cd).

(** The bytes a call has produced. *)
Definition produced (r : cres) : list Z := firstn (r_pos r) (r_out r).

(** Descriptors reachable through the API. *)
Inductive reachable : conv -> Prop :=
| reach_open from to flags cd : source from -> target to ->
    reiconv_open_from_index true from to flags = Ok (inl cd) -> reachable cd
| reach_iconv cd s outb outleft r : reachable cd -> input s -> (outleft <= length outb)%nat ->
    reiconv_iconv cd (Some s) (Some outb) outleft = Ok r -> reachable (r_cd r)
| reach_flush cd outb outleft r : reachable cd -> (1 <= outleft <= length outb)%nat ->
    reiconv_iconv cd None (Some outb) outleft = Ok r -> reachable (r_cd r)
| reach_flush0 cd outb outleft r : reachable cd -> (outleft <= length outb)%nat -> pending cd = [] ->
    reiconv_iconv cd None (Some outb) outleft = Ok r -> reachable (r_cd r)
| reach_reset cd outleft r : reachable cd -> reiconv_iconv cd None None outleft = Ok r -> reachable (r_cd r).

(** Internal: what is known about such a descriptor. *)
Definition good_with (cd : conv) (inv : Z * Z -> Prop) (oinv : Z -> Prop) : Prop :=
  exists pend, dec_ok (ifuncs cd) (unit_of cd) inv pend ucs4 /\ dec_stable (ifuncs cd) inv /\ enc_ok (ofuncs cd) oinv ucs4 /\
   (1 <= unit_of cd)%nat /\ cd_ok (ifuncs cd) (ofuncs cd) (unit_of cd) inv oinv (skipping cd) cd /\
   (~ In (iindex cd) bom_sources -> forall x, inv x -> snd x = 0).
Definition good (cd : conv) : Prop := exists inv oinv, good_with cd inv oinv.

Lemma fffd_ok : ucs4 0xfffd.
Proof. unfold ucs4. lia. Qed.

Lemma good_at : forall cd inv oinv i o, good_with cd inv oinv -> inv i -> oinv o -> good_with (at_ cd i o) inv oinv.
Proof.
  intros cd inv oinv i o (pend & A & B & C & D & E & F) I O. exists pend.
  change (ifuncs (at_ cd i o)) with (ifuncs cd). change (ofuncs (at_ cd i o)) with (ofuncs cd).
  change (unit_of (at_ cd i o)) with (unit_of cd). change (skipping (at_ cd i o)) with (skipping cd).
  repeat (split; [assumption|]). split; [|exact F]. now apply cd_ok_at.
Qed.

Lemma unit_of_pos : forall i, ei_unit i = Z.of_nat (Z.to_nat (ei_unit i)) /\ (1 <= Z.to_nat (ei_unit i))%nat.
Proof.
  intros i. unfold ei_unit. destruct (existsb _ _); [cbn; lia|]. destruct (existsb _ _); cbn; lia.
Qed.

Lemma good_open : forall from to flags cd, source from -> target to ->
  reiconv_open_from_index true from to flags = Ok (inl cd) -> good cd /\ cd_i cd = (0, 0) /\ ostate cd = 0 /\
    iindex cd = from /\ oindex cd = to.
Proof.
  intros from to flags cd (S1 & S2) (T1 & T2) H. unfold reiconv_open_from_index, encoding_at in H.
  destruct (Z.ltb_spec from 0); [lia|]. destruct (Z.ltb_spec to 0); [lia|].
  destruct (nth_error all_encodings (Z.to_nat from)) as [fi|] eqn:Ei; [|discriminate].
  destruct (nth_error all_encodings (Z.to_nat to)) as [fo|] eqn:Eo; [|discriminate].
  pose proof (sources_ok _ _ Ei) as SO. pose proof (targets_ok _ _ Eo) as TO. cbn [Nat.add] in SO, TO.
  rewrite Z2Nat.id in SO, TO by lia.
  destruct (SO S2) as (inv & pend & D & DS & B0). destruct (TO T2) as (oinv & E).
  rewrite Z2Nat.id in D, B0 by lia.
  inversion H; subst cd. cbn. repeat split. exists inv, oinv, pend. unfold unit_of, skipping, cd_ok, cd_i; cbn.
  destruct (unit_of_pos from) as (U1 & U2).
  split; [exact D|]. split; [exact DS|]. split; [exact E|]. split; [exact U2|]. split; [|exact B0].
  split; [reflexivity|]. split; [reflexivity|]. split; [eapply d_init; exact D|]. split; [eapply e_init; exact E|]. auto.
Qed.

(** ** Conversion calls *)
Definition same_desc (cd cd' : conv) : Prop :=
  iindex cd' = iindex cd /\ ifuncs cd' = ifuncs cd /\ oindex cd' = oindex cd /\ ofuncs cd' = ofuncs cd /\
  discard_ilseq cd' = discard_ilseq cd.

Lemma same_at : forall cd cd', cd' = at_ cd (cd_i cd') (ostate cd') <-> same_desc cd cd'.
Proof.
  intros [a b c d e f g h] [a' b' c' d' e' f' g' h']. unfold same_desc, at_, cd_i; cbn. split.
  - intros H. inversion H; subst. repeat split.
  - intros (-> & -> & -> & -> & ->). reflexivity.
Qed.

(** Everything that is observable about a call with input. *)
Definition iconv_spec (cd : conv) (s outb : list Z) (outleft : nat) (r : cres) : Prop :=
  length (r_out r) = length outb /\ skipn outleft (r_out r) = skipn outleft outb /\
  (r_pos r + r_left r)%nat = outleft /\ (exists k, (k <= length s)%nat /\ r_in r = skipn k s) /\
  same_desc cd (r_cd r) /\
  exists cs1 cs2 st rest i' n,
    rd cd s (cs1 ++ cs2) st rest i' /\ wr cd cs1 = (produced r, n, ostate (r_cd r), []) /\
    match r_ret r with
    | Num m => m = n /\ cs2 = [] /\ st = AtEnd /\ r_in r = [] /\ cd_i (r_cd r) = i'
    | Err EINVAL => cs2 = [] /\ st = Truncated /\ r_in r = rest /\ rest <> [] /\ cd_i (r_cd r) = i' /\ rd (r_cd r) rest [] Truncated rest i'
    | Err EILSEQ => skipping cd = false /\
       ((cs2 = [] /\ st = Invalid /\ r_in r = rest /\ cd_i (r_cd r) = i' /\ rest <> [] /\ rd (r_cd r) rest [] Invalid rest i') \/
       exists wc cs, cs2 = wc :: cs /\ write1 (ofuncs cd) (skipping cd) wc (ostate (r_cd r)) = None /\
         rd (r_cd r) (r_in r) cs2 st rest i' /\ tk cd s cs1 (r_in r))
    | Err E2BIG => exists wc cs, cs2 = wc :: cs /\ (rd (r_cd r) (r_in r) cs2 st rest i' /\ tk cd s cs1 (r_in r)) /\
         (r_left r < MAXNEED)%nat /\
         forall bs ost', emit (ofuncs cd) wc (ostate (r_cd r)) = Some (bs, ost') -> (r_left r < Nat.max 1 (length bs))%nat
    | Err ENOMEM => False
    end.

Lemma good_iconv_with : forall cd inv oinv s outb outleft, good_with cd inv oinv -> input s -> (outleft <= length outb)%nat ->
  exists r, reiconv_iconv cd (Some s) (Some outb) outleft = Ok r /\ iconv_spec cd s outb outleft r /\ good_with (r_cd r) inv oinv.
Proof.
  intros cd inv oinv s outb outleft G (B & L) R. pose proof G as (pend & A1 & A2 & A3 & A4 & A5 & A6).
  destruct (convert_spec (ifuncs cd) (ofuncs cd) (unit_of cd) inv pend oinv ucs4 (skipping cd) A1 A2 A3 A4 fffd_ok cd s outb outleft A5 B L R)
    as (r & E & S).
  exists r. split; [exact E|].
  destruct S as ((M1 & M2 & M3) & S2 & S3 & S4 & S5 & S6 & cs1 & cs2 & st & rest & i' & n & S7 & S8 & S9 & S10).
  assert (SD : same_desc cd (r_cd r)) by (now apply same_at).
  pose proof SD as (D1 & D2 & D3 & D4 & D5).
  assert (RD : forall x y z u v, reads (ifuncs cd) (unit_of cd) (skipping cd) x (cd_i (r_cd r)) y z u v -> rd (r_cd r) x y z u v).
  { intros. unfold rd, unit_of, skipping in *. rewrite D1, D2, D5. assumption. }
  split.
  - split; [exact M1|]. split; [exact M3|]. split; [exact S2|]. split; [exact S3|]. split; [exact SD|].
    exists cs1, cs2, st, rest, i', n. split; [exact S7|]. split; [exact S9|].
    destruct (r_ret r) as [m|[]]; auto.
    + destruct S10 as (wc & cs & -> & X & Y). exists wc, cs. split; [reflexivity|]. destruct X as (X & T). split; [split; [now apply RD|exact T]|exact Y].
    + destruct S10 as (X & [(Y1 & Y2 & Y3 & Y4 & Y5 & Y6)|(wc & cs & Y1 & Y2 & Y3)]); split; auto.
      * left. repeat split; auto.
        apply RD. rewrite Y4. exact (reads_inval _ _ _ rest i' 0 i' Y5 X Y6).
      * right. exists wc, cs. split; [exact Y1|]. split; [exact Y2|]. destruct Y3 as (Y3 & T). split; [now apply RD|exact T].
    + destruct S10 as (X1 & X2 & X3 & X4 & X5 & X6). repeat (split; [assumption|]). apply RD. rewrite X5. now apply reads_trunc.
  - rewrite S4. now apply good_at.
Qed.

(** ** Flush calls *)
Definition flush_res (cd : conv) (outb : list Z) (outleft : nat) (r : cres) : Prop :=
  length (r_out r) = length outb /\ skipn outleft (r_out r) = skipn outleft outb /\
  (r_pos r + r_left r)%nat = outleft /\ r_in r = [] /\ same_desc cd (r_cd r) /\
  match r_ret r with
  | Num c => exists out o1, wr cd (pending cd) = (out, c, o1, []) /\ produced r = out ++ closing (ofuncs cd) o1 /\
      cd_i (r_cd r) = (0, ibyteorder cd) /\ ostate (r_cd r) = 0
  | Err E2BIG => exists h1 n, wr cd h1 = (produced r, n, ostate (r_cd r), []) /\
      pending cd = h1 ++ pending (r_cd r) /\ ibyteorder (r_cd r) = ibyteorder cd /\ (r_left r < MAXNEED)%nat /\
      (pending (r_cd r) = [] -> (r_left r < length (closing (ofuncs cd) (ostate (r_cd r))))%nat) /\
      (forall wc bs ost', pending (r_cd r) = [wc] -> emit (ofuncs cd) wc (ostate (r_cd r)) = Some (bs, ost') -> (r_left r < Nat.max 1 (length bs))%nat)
  | Err EILSEQ => skipping cd = false /\ r_cd r = cd /\ r_pos r = 0%nat /\
      exists wc, pending cd = [wc] /\ write1 (ofuncs cd) (skipping cd) wc (ostate cd) = None
  | _ => False
  end.

Lemma good_flush_with : forall cd inv oinv outb outleft, good_with cd inv oinv -> (outleft <= length outb)%nat ->
  ((1 <= outleft)%nat \/ pending cd = []) ->
  exists r, reiconv_iconv cd None (Some outb) outleft = Ok r /\ flush_res cd outb outleft r /\ good_with (r_cd r) inv oinv.
Proof.
  intros cd inv oinv outb outleft G R H. pose proof G as (pend & A1 & A2 & A3 & A4 & A5 & A6).
  destruct (reset_spec (ifuncs cd) (ofuncs cd) (unit_of cd) inv pend oinv ucs4 (skipping cd) A1 A2 A3 A4 fffd_ok cd outb outleft A5 R H)
    as (r & E & S).
  exists r. split; [exact E|].
  destruct S as ((M1 & M2 & M3) & S2 & S3 & S4 & S5 & S6 & F & S7).
  split; [|rewrite S4; now apply good_at].
  assert (SD : same_desc cd (r_cd r)) by (now apply same_at). pose proof SD as (D1 & D2 & D3 & D4 & D5).
  split; [exact M1|]. split; [exact M3|]. split; [exact S2|]. split; [exact S3|]. split; [exact SD|].
  destruct (r_ret r) as [c|[]]; auto.
  - destruct S7 as (out & o1 & X1 & X2 & X3). exists out, o1. rewrite X3. auto.
  - destruct S7 as (h1 & n & X1 & X2 & X3 & X4 & X5 & X6). exists h1, n. unfold pending. rewrite D2. auto 10.
Qed.

Lemma good_null_with : forall cd inv oinv, good_with cd inv oinv -> good_with (loop_reset_null cd) inv oinv.
Proof.
  intros cd inv oinv G. pose proof G as (pend & A1 & A2 & A3 & A4 & A5 & A6).
  change (loop_reset_null cd) with (at_ cd (0, ibyteorder cd) 0). apply good_at; auto.
  - exact (d_reset _ _ _ _ _ A1 _ (proj1 (proj2 (proj2 A5)))).
  - eapply e_init; eauto.
Qed.

Lemma reachable_good : forall cd, reachable cd -> good cd.
Proof.
  intros cd H. induction H as [from to flags cd S T E|cd s outb outleft r H IH I R E|cd outb outleft r H IH R E|cd outb outleft r H IH R P E|cd outleft r H IH E].
  - now apply good_open in E.
  - destruct IH as (inv & oinv & G). exists inv, oinv.
    destruct (good_iconv_with cd inv oinv s outb outleft G I R) as (r' & E' & _ & G'). rewrite E in E'. inversion E'; subst. exact G'.
  - destruct IH as (inv & oinv & G). exists inv, oinv.
    destruct (good_flush_with cd inv oinv outb outleft G) as (r' & E' & _ & G'); [lia|left; lia|]. rewrite E in E'. inversion E'; subst. exact G'.
  - destruct IH as (inv & oinv & G). exists inv, oinv.
    destruct (good_flush_with cd inv oinv outb outleft G) as (r' & E' & _ & G'); [lia|now right|]. rewrite E in E'. inversion E'; subst. exact G'.
  - destruct IH as (inv & oinv & G). exists inv, oinv. cbn in E. inversion E; subst. cbn. now apply good_null_with.
Qed.

(** ** Main facts about reachable descriptors *)
Theorem iconv_meets_spec : forall cd s outb outleft, reachable cd -> input s -> (outleft <= length outb)%nat ->
  exists r, reiconv_iconv cd (Some s) (Some outb) outleft = Ok r /\ iconv_spec cd s outb outleft r /\ reachable (r_cd r).
Proof.
  intros cd s outb outleft H I R. destruct (reachable_good cd H) as (inv & oinv & G).
  destruct (good_iconv_with cd inv oinv s outb outleft G I R) as (r & E & S & _).
  exists r. split; [exact E|]. split; [exact S|]. eapply reach_iconv; eauto.
Qed.
Theorem flush_meets_spec : forall cd outb outleft, reachable cd -> (outleft <= length outb)%nat ->
  ((1 <= outleft)%nat \/ pending cd = []) ->
  exists r, reiconv_iconv cd None (Some outb) outleft = Ok r /\ flush_res cd outb outleft r /\ reachable (r_cd r).
Proof.
  intros cd outb outleft H R P. destruct (reachable_good cd H) as (inv & oinv & G).
  destruct (good_flush_with cd inv oinv outb outleft G R P) as (r & E & S & _).
  exists r. split; [exact E|]. split; [exact S|]. destruct P; [eapply reach_flush; eauto|eapply reach_flush0; eauto].
Qed.
Lemma rd_total : forall cd s, reachable cd -> input s -> exists cs st rest i, rd cd s cs st rest i /\ Forall ucs4 cs /\
   (length cs <= 2 * length s + 1)%nat /\ exists k, (k <= length s)%nat /\ rest = skipn k s.
Proof.
  intros cd s H (B & L). destruct (reachable_good cd H) as (inv & oinv & pend & A1 & A2 & A3 & A4 & A5 & A6).
  destruct (reads_total (ifuncs cd) (unit_of cd) inv pend ucs4 (skipping cd) A1 A4 s (cd_i cd)) as (cs & st & r & i & X & Y & Z1 & Z2 & Z3); auto.
  { apply A5. }
  exists cs, st, r, i. auto.
Qed.
Lemma rd_det : forall cd s cs st r i cs' st' r' i', rd cd s cs st r i -> rd cd s cs' st' r' i' -> cs = cs' /\ st = st' /\ r = r' /\ i = i'.
Proof. intros. eapply reads_det; eauto. Qed.
Lemma rd_app : forall cd s t cs st r i, reachable cd -> input (s ++ t) -> rd cd s cs st r i ->
  match st with
  | Invalid => rd cd (s ++ t) cs Invalid (r ++ t) i
  | AtEnd | Truncated => forall cs2 st2 r2 i2, reads (ifuncs cd) (unit_of cd) (skipping cd) (r ++ t) i cs2 st2 r2 i2 ->
      rd cd (s ++ t) (cs ++ cs2) st2 r2 i2
  end.
Proof.
  intros cd s t cs st r i H (B & L) R. destruct (reachable_good cd H) as (inv & oinv & pend & A1 & A2 & A3 & A4 & A5 & A6).
  apply Forall_app in B. destruct B as (B1 & B2).
  exact (reads_app (ifuncs cd) (unit_of cd) inv pend ucs4 (skipping cd) A1 A2 A4 s (cd_i cd) cs st r i R t (proj1 (proj2 (proj2 A5))) B1 B2 L).
Qed.
Lemma wr_app : forall cd cs1 cs2 out n o1, wr cd cs1 = (out, n, o1, []) ->
  wr cd (cs1 ++ cs2) = let '(out2, n2, o2, bad) := writes_all (ofuncs cd) (skipping cd) cs2 o1 in (out ++ out2, (n + n2)%nat, o2, bad).
Proof. intros. now apply writes_all_app. Qed.
Lemma not_bom_byteorder : forall cd, reachable cd -> ~ In (iindex cd) bom_sources -> ibyteorder cd = 0.
Proof.
  intros cd H N. destruct (reachable_good cd H) as (inv & oinv & pend & A1 & A2 & A3 & A4 & A5 & A6).
  exact (A6 N (cd_i cd) (proj1 (proj2 (proj2 A5)))).
Qed.

Lemma wr_bounds : forall cd cs out n o bad, reachable cd -> Forall ucs4 cs -> wr cd cs = (out, n, o, bad) ->
  bytes out /\ (length out <= MAXNEED * length cs)%nat /\ (n <= length cs)%nat /\
  exists cs1, cs = cs1 ++ bad /\ wr cd cs1 = (out, n, o, []).
Proof.
  intros cd cs out n o bad H F W. destruct (reachable_good cd H) as (inv & oinv & pend & A1 & A2 & A3 & A4 & A5 & A6).
  destruct (writes_all_oinv (ofuncs cd) (unit_of cd) oinv ucs4 (skipping cd) A3 A4 fffd_ok cs (ostate cd) out n o bad F) as (B1 & B2 & B3 & B4 & B5); auto.
  apply A5.
Qed.
Lemma closing_bound : forall cd cs out n o, reachable cd -> Forall ucs4 cs -> wr cd cs = (out, n, o, []) ->
  (length (closing (ofuncs cd) o) <= MAXNEED)%nat.
Proof.
  intros cd cs out n o H F W. destruct (reachable_good cd H) as (inv & oinv & pend & A1 & A2 & A3 & A4 & A5 & A6).
  destruct (writes_all_oinv (ofuncs cd) (unit_of cd) oinv ucs4 (skipping cd) A3 A4 fffd_ok cs (ostate cd) out n o [] F) as (B1 & _); auto.
  { apply A5. }
  destruct (frst_total (ofuncs cd) (unit_of cd) oinv ucs4 A3 A4 o B1) as (bs & X & _).
  destruct (frst_closing (ofuncs cd) (unit_of cd) oinv ucs4 A3 A4 o bs B1 X) as (-> & L). exact L.
Qed.
Lemma pending_ucs4 : forall cd, reachable cd -> Forall ucs4 (pending cd).
Proof.
  intros cd H. destruct (reachable_good cd H) as (inv & oinv & pend & A1 & A2 & A3 & A4 & A5 & A6).
  unfold pending, held. pose proof (d_flush _ _ _ _ _ A1 (cd_i cd) (proj1 (proj2 (proj2 A5)))) as F.
  destruct (f_flush (ifuncs cd)) as [fl|]; [|constructor].
  destruct F as (b & w & ist' & E & _ & _ & F). unfold cd_i in E; cbn in E. rewrite E.
  destruct w as [wc|]; [|constructor]. destruct (Z.eqb_spec b 0); [constructor|].
  destruct (F n) as (wc' & W & P & _). inversion W; subst. constructor; [exact P|constructor].
Qed.

(** Every reachable descriptor was obtained from an opened one, of which only the states have changed. *)
Lemma reachable_opened : forall cd, reachable cd -> exists from to flags cd0, source from /\ target to /\
  reiconv_open_from_index true from to flags = Ok (inl cd0) /\ same_desc cd0 cd.
Proof.
  assert (T : forall a b c, same_desc a b -> same_desc b c -> same_desc a c).
  { unfold same_desc. intros a b c (A1 & A2 & A3 & A4 & A5) (B1 & B2 & B3 & B4 & B5). repeat split; congruence. }
  intros cd H. induction H as [from to flags cd S T' E|cd s outb outleft r H IH I R E|cd outb outleft r H IH R E|cd outb outleft r H IH R P E|cd outleft r H IH E].
  - exists from, to, flags, cd. unfold same_desc. auto 10.
  - destruct IH as (from & to & flags & cd0 & A & B & C & D). exists from, to, flags, cd0. repeat (split; [assumption|]).
    destruct (iconv_meets_spec cd s outb outleft H I R) as (r' & E' & S & _). rewrite E in E'. inversion E'; subst.
    eapply T; [exact D|]. apply S.
  - destruct IH as (from & to & flags & cd0 & A & B & C & D). exists from, to, flags, cd0. repeat (split; [assumption|]).
    destruct (flush_meets_spec cd outb outleft H) as (r' & E' & S & _); [lia|lia|]. rewrite E in E'. inversion E'; subst.
    eapply T; [exact D|]. apply S.
  - destruct IH as (from & to & flags & cd0 & A & B & C & D). exists from, to, flags, cd0. repeat (split; [assumption|]).
    destruct (flush_meets_spec cd outb outleft H) as (r' & E' & S & _); [lia|auto|]. rewrite E in E'. inversion E'; subst.
    eapply T; [exact D|]. apply S.
  - destruct IH as (from & to & flags & cd0 & A & B & C & D). exists from, to, flags, cd0. repeat (split; [assumption|]).
    cbn in E. inversion E; subst. cbn. eapply T; [exact D|]. unfold same_desc. repeat split.
Qed.
