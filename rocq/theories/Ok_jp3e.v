(** Encoder contract of ISO-2022-JP-3.  The state holds the designated set and possibly a character that waits
    for a combining one; both are kept symbolic. *)
From Coq Require Import ZArith List Bool Lia.
From Verif Require Import Base Loop Contract LoopLib Reflect Sx Rng EncLib DecLib TabLib SbLib Unroll.
From Verif Require Import TabIn_sb TabIn_cjk.
From Verif Require Import Conv_uni Conv_sb Conv_set_ja Conv_set_zh Conv_set_ko Conv_cjk Conv_iso2022 Encodings Leaf CjkLib Ok_jisx.
Import ListNotations.
Open Scope Z_scope.

(** ** The state *)
(** Set s is designated; lt waits (0: nothing); before lt the set was p. *)
Definition jp3_word (s lt p : Z) : Z := Z.lor s (Z.lor (Z.shiftl p 0x13) (Z.shiftl lt 3)).
Definition jp3_inv (ost : Z) : Prop :=
  0 <= ost <= 5 \/ exists s lt p, ost = jp3_word s lt p /\ 0 < lt < 65536 /\ (s = 3 /\ 0 <= p <= 5 \/ s = 4 /\ p = 4).
Lemma lor_high : forall a b k, 0 <= k -> 0 <= a < 2 ^ k -> Z.lor a (Z.shiftl b k) = a + b * 2 ^ k.
Proof.
  intros a b k K A. rewrite <- Z.shiftl_mul_pow2 by exact K. symmetry. rewrite <- Z.lxor_lor, <- Z.add_nocarry_lxor; try reflexivity;
  (apply Z.bits_inj'; intros j J; rewrite Z.land_spec, Z.bits_0; destruct (Z.ltb_spec j k);
   [rewrite Z.shiftl_spec_low by lia; apply andb_false_r|]; destruct (Z.eq_dec a 0) as [->|]; [now rewrite Z.bits_0|];
   rewrite Z.bits_above_log2; [reflexivity|lia|]; apply Z.lt_le_trans with k; [apply Z.log2_lt_pow2; lia|lia]).
Qed.
Lemma jp3_word_val : forall s lt p, 0 <= s < 8 -> 0 <= lt < 65536 -> jp3_word s lt p = s + 8 * lt + 524288 * p.
Proof.
  intros s lt p S L. unfold jp3_word. rewrite (Z.lor_comm (Z.shiftl p 19)), (Z.lor_assoc s).
  rewrite (lor_high s lt 3), lor_high by (change (2 ^ 3) with 8; change (2 ^ 0x13) with 524288; lia).
  change (2 ^ 3) with 8. change (2 ^ 0x13) with 524288. lia.
Qed.
Lemma jp3_parts : forall s lt p, 0 <= s < 8 -> 0 <= lt < 65536 ->
  u16 (Z.shiftr (jp3_word s lt p) 3) = lt /\ Z.shiftr (jp3_word s lt p) 0x13 = p /\ Z.land (jp3_word s lt p) 7 = s.
Proof.
  intros s lt p S L. rewrite jp3_word_val by assumption. unfold u16. rewrite !Z.shiftr_div_pow2 by lia.
  change (2 ^ 3) with 8. change (2 ^ 0x13) with 524288. change 7 with (Z.ones 3). rewrite Z.land_ones by lia. change (2 ^ 3) with 8.
  repeat split.
  - replace (s + 8 * lt + 524288 * p) with (s + (lt + 65536 * p) * 8) by lia. rewrite Z.div_add, Z.div_small by lia.
    replace (0 + (lt + 65536 * p)) with (lt + p * 65536) by lia. rewrite Z.mod_add by lia. apply Z.mod_small. lia.
  - replace (s + 8 * lt + 524288 * p) with ((s + 8 * lt) + p * 524288) by lia. rewrite Z.div_add, Z.div_small by lia. lia.
  - replace (s + 8 * lt + 524288 * p) with (s + (lt + 65536 * p) * 8) by lia. rewrite Z.mod_add by lia. apply Z.mod_small. lia.
Qed.
Lemma jp3_plain : forall ost, 0 <= ost <= 5 -> u16 (Z.shiftr ost 3) = 0 /\ Z.shiftr ost 0x13 = 0 /\ Z.land ost 7 = ost.
Proof.
  intros ost H. assert (In ost [0; 1; 2; 3; 4; 5]) as I by (cbn; lia). cbn [In] in I.
  repeat (destruct I as [<-|I]; [repeat split; reflexivity|]). contradiction.
Qed.

(** ** The leaf functions *)
(** A character that may start a composed one is in plane 1. *)
Lemma first_ok : forall v, In v j213_first -> v <> 0 /\ Z.land v 0x80 <> 0 /\ Z.land v 0x8000 = 0 /\ 0 < Z.land v 0x7f7f < 65536.
Proof.
  assert (A : forallb (fun v => negb (v =? 0) && negb (Z.land v 0x80 =? 0) && (Z.land v 0x8000 =? 0) && (0 <? Z.land v 0x7f7f) && (Z.land v 0x7f7f <? 65536)) j213_first = true) by (vm_compute; reflexivity).
  intros v I. rewrite forallb_forall in A. apply A in I. rewrite !andb_true_iff, !negb_true_iff, !Z.eqb_neq, Z.eqb_eq, !Z.ltb_lt in I. tauto.
Qed.
Lemma jp3_j213 : forall wc, ucs4 wc -> exists v, ucs4_to_jisx0213 wc = Ok v /\
  (v = 0 \/ v <> 0 /\ Z.land v 0x80 <> 0 /\ Z.land v 0x8000 = 0 /\ 0 < Z.land v 0x7f7f < 65536 \/ v <> 0 /\ Z.land v 0x80 = 0).
Proof.
  intros wc U. destruct (to_j213 wc U) as (v & E & V). exists v. split; [exact E|]. destruct V as [V|[V|(V & V1 & V2)]]; [now left| |].
  - right; left. now apply first_ok.
  - right; right. split; [lia|exact V1].
Qed.
(** The search for a composed character stops at an entry, or behind the last one. *)
Lemma comb_loop : forall fuel idx len lt, 0 <= idx -> 1 <= len -> idx + len <= 25 -> (Z.to_nat len <= S fuel)%nat ->
  exists idx' len', 0 <= idx' /\ 0 <= len' /\ idx' + len' = idx + len /\ forall buf ps st wc n ro r ost,
    iso2022_jp3_wctomb_loop (S fuel) buf idx lt len ps st wc n ro r ost = iso2022_jp3_wctomb_j buf idx' lt len' ps st wc n ro r ost.
Proof.
  induction fuel as [|fuel IH]; intros idx len lt A B C D;
  (destruct (ti_iso2022_jp3_comp_table_data (2 * idx) ltac:(lia)) as (x & E & R);
   destruct (Z.eq_dec x lt) as [H|H];
   [exists idx, len; split; [lia|split; [lia|split; [reflexivity|]]]; intros; rewrite iso2022_jp3_wctomb_loop_S; unfold tget; rewrite E, (proj2 (Z.eqb_eq _ _) H); reflexivity|]).
  - assert (len = 1) by lia. subst len. exists (idx + 1), 0. split; [lia|split; [lia|split; [lia|]]]. intros. rewrite iso2022_jp3_wctomb_loop_S. unfold tget.
    rewrite E, (proj2 (Z.eqb_neq _ _) H). cbv zeta. change (u32 (1 - 1)) with 0. cbn [Z.gtb Z.compare]. unfold u32. rewrite Z.mod_small by lia. reflexivity.
  - destruct (Z.eq_dec len 1) as [->|N].
    + exists (idx + 1), 0. split; [lia|split; [lia|split; [lia|]]]. intros. rewrite iso2022_jp3_wctomb_loop_S. unfold tget.
      rewrite E, (proj2 (Z.eqb_neq _ _) H). cbv zeta. change (u32 (1 - 1)) with 0. cbn [Z.gtb Z.compare]. unfold u32. rewrite Z.mod_small by lia. reflexivity.
    + destruct (IH (idx + 1) (len - 1) lt) as (i' & l' & I1 & I2 & I3 & I4); [lia..|]. exists i', l'. split; [lia|split; [lia|split; [lia|]]].
      intros. rewrite iso2022_jp3_wctomb_loop_S. unfold tget. rewrite E, (proj2 (Z.eqb_neq _ _) H). cbv zeta.
      unfold u32. rewrite !Z.mod_small by lia. destruct (Z.gtb_spec (len - 1) 0); [|lia]. apply I4.
Qed.
Lemma comb_loop' : forall idx len lt, 0 <= idx -> 1 <= len -> idx + len <= 25 ->
  exists idx' len', 0 <= idx' /\ 0 <= len' /\ idx' + len' = idx + len /\ forall buf ps st wc n ro r ost,
    iso2022_jp3_wctomb_loop 64 buf idx lt len ps st wc n ro r ost = iso2022_jp3_wctomb_j buf idx' lt len' ps st wc n ro r ost.
Proof. intros idx len lt A B C. apply (comb_loop 63); lia. Qed.

(** ** One character, behind bytes already written *)
(** K, called with the output position ro, gives o: bytes and the next state, or nothing. *)
Definition uok (o : option (list Z * Z)) (K : Z -> nat -> nat -> wlog -> Z -> res (Z * wlog * Z)) : Prop :=
  forall ro n r ost, (ro <= n)%nat -> inb r n ->
  match o with
  | None => K (Z.of_nat ro) n ro r ost = Ok (-1, r, ost)
  | Some (bs, st') =>
    if Nat.ltb n (ro + length bs) then exists r', K (Z.of_nat ro) n ro r ost = Ok (-2, r', ost) /\ inb r' n
    else K (Z.of_nat ro) n ro r ost = Ok (Z.of_nat (ro + length bs), put ro bs r, st')
  end.
Definition uout (K : Z -> nat -> nat -> wlog -> Z -> res (Z * wlog * Z)) : Prop :=
  exists o, uok o K /\ match o with Some (bs, st') => bytes bs /\ (length bs <= 6)%nat /\ jp3_inv st' | None => True end.
Lemma uout_none : forall K, (forall c n ro r ost, K c n ro r ost = Ok (-1, r, ost)) -> uout K.
Proof. intros K H. exists None. split; [|exact I]. intros ro n r ost L R. apply H. Qed.
Lemma uout_some : forall K bs st', bytes bs -> (length bs <= 6)%nat -> jp3_inv st' ->
  (forall c n ro r ost, K c n ro r ost = if Nat.ltb n (Z.to_nat (c + Z.of_nat (length bs))) then Ok (-2, r, ost) else Ok (c + Z.of_nat (length bs), put ro bs r, st')) -> uout K.
Proof.
  intros K bs st' B L I H. exists (Some (bs, st')). split; [|auto]. intros ro n r ost N R. rewrite H. rewrite <- Nat2Z.inj_add, Nat2Z.id.
  destruct (Nat.ltb n (ro + length bs)); [exists r; auto|reflexivity].
Qed.
(** First some bytes, then the rest. *)
Lemma uout_esc : forall K esc bs st', bytes esc -> bytes bs -> (length esc + length bs <= 6)%nat -> jp3_inv st' ->
  (forall c n ro r ost, K c n ro r ost =
    if Nat.ltb n (Z.to_nat (c + Z.of_nat (length esc))) then Ok (-2, r, ost)
    else if Nat.ltb n (Z.to_nat (c + Z.of_nat (length esc) + Z.of_nat (length bs))) then Ok (-2, put ro esc r, ost)
    else Ok (c + Z.of_nat (length esc) + Z.of_nat (length bs), put (ro + length esc) bs (put ro esc r), st')) -> uout K.
Proof.
  intros K esc bs st' E B L I H. exists (Some (esc ++ bs, st')). split; [|rewrite app_length; split; [now apply Forall_app|auto]].
  intros ro n r ost N R. rewrite H, app_length. rewrite <- !Nat2Z.inj_add, !Nat2Z.id.
  destruct (Nat.ltb_spec n (ro + length esc)), (Nat.ltb_spec n (ro + length esc + length bs)), (Nat.ltb_spec n (ro + (length esc + length bs))); try lia.
  - exists r; auto.
  - exists (put ro esc r). split; [reflexivity|now apply put_inb].
  - rewrite put_app. do 3 f_equal. lia.
Qed.
Ltac ubytes := repeat first [apply Forall_nil | apply Forall_cons; [unfold byte; first [assumption|lia]|]].
Lemma puts2 : forall ro a b r, wr (wr r ro a) (Nat.add ro 1) b = put ro [a; b] r.
Proof. intros. unfold wr. cbn [put]. now rewrite Nat.add_1_r. Qed.
Lemma puts3 : forall ro a b c r, wr (wr (wr r ro a) (Nat.add ro 1) b) (Nat.add ro 2) c = put ro [a; b; c] r.
Proof. intros. unfold wr. cbn [put]. rewrite Nat.add_1_r. replace (ro + 2)%nat with (S (S ro)) by lia. reflexivity. Qed.
Lemma puts4 : forall ro a b c d r, wr (wr (wr (wr r ro a) (Nat.add ro 1) b) (Nat.add ro 2) c) (Nat.add ro 3) d = put ro [a; b; c; d] r.
Proof. intros. rewrite puts3. unfold wr. cbn [put]. replace (ro + 3)%nat with (S (S (S ro))) by lia. reflexivity. Qed.
Lemma put_more : forall ro esc a r, wr (put ro esc r) (Nat.add ro (length esc)) a = put ro (esc ++ [a]) r.
Proof. intros. rewrite <- put_app. reflexivity. Qed.
Lemma put_more2 : forall ro esc a b r, wr (wr (put ro esc r) (Nat.add ro (length esc)) a) (Nat.add (Nat.add ro (length esc)) 1) b = put ro (esc ++ [a; b]) r.
Proof. intros. rewrite puts2. apply put_app. Qed.

Lemma uout_hold : forall K st', jp3_inv st' -> (forall c n ro r ost, K c n ro r ost = Ok (c, r, st')) -> uout K.
Proof.
  intros K st' I H. exists (Some ([], st')). split; [|split; [constructor|split; [cbn; lia|exact I]]]. intros ro n r ost N R. rewrite H. cbn [length put].
  rewrite Nat.add_0_r. destruct (Nat.ltb_spec n ro); [lia|reflexivity].
Qed.
Lemma la0 : forall (buf : wlog) (k : wlog -> res (Z * wlog * Z)), lappb 2 buf 0 [] k = k buf.
Proof. reflexivity. Qed.
Lemma la1 : forall (buf : wlog) a (k : wlog -> res (Z * wlog * Z)), lappb 2 buf 0 [(0%nat, a)] k = k ((0%nat, a) :: buf).
Proof. reflexivity. Qed.
Lemma la2 : forall (buf : wlog) a b (k : wlog -> res (Z * wlog * Z)), lappb 2 buf 0 [(1%nat, b); (0%nat, a)] k = k ((1%nat, b) :: (0%nat, a) :: buf).
Proof. reflexivity. Qed.
Lemma lr00 : forall (buf : wlog) a (k : Z -> res (Z * wlog * Z)), lrd ((0%nat, a) :: buf) 0 k = k a.
Proof. reflexivity. Qed.
Lemma lr10 : forall (buf : wlog) a b (k : Z -> res (Z * wlog * Z)), lrd ((1%nat, b) :: (0%nat, a) :: buf) 0 k = k a.
Proof. reflexivity. Qed.
Lemma lr11 : forall (buf : wlog) b (k : Z -> res (Z * wlog * Z)), lrd ((1%nat, b) :: buf) 1 k = k b.
Proof. reflexivity. Qed.
Lemma bind_ok : forall (A : Type) (x : A) (k : A -> res (Z * wlog * Z)), bind (Ok x) k = k x.
Proof. reflexivity. Qed.
(** Running past a charset function with known result. *)
Ltac ul L := rewrite L; rewrite bind_ok; cbv beta iota; rewrite ?la0, ?la1, ?la2; cbv beta; change (1 =? -1) with false; change (2 =? -1) with false;
  change (-1 =? -1) with true; change (1 =? 1) with true; change (2 =? 2) with true; cbn [negb]; rewrite ?lr00, ?lr10, ?lr11; cbv beta.
Ltac uq := rewrite ?Z.add_0_r; cbn [length Z.of_nat Pos.of_succ_nat Pos.succ]; rewrite ?Z.add_0_r; rewrite ?puts4, ?puts3, ?puts2.

Section CHARACTER.
Variables (state wc : Z).
Hypothesis S : 0 <= state <= 5.
Hypothesis U : ucs4 wc.
Definition j213v (jch : Z) : Prop := jch = 0 \/ jch <> 0 /\ Z.land jch 0x80 <> 0 /\ Z.land jch 0x8000 = 0 /\ 0 < Z.land jch 0x7f7f < 65536 \/ jch <> 0 /\ Z.land jch 0x80 = 0.

Lemma pair7 : forall v, bytes [Z.land (Z.shiftr v 8) 0x7f; Z.land v 0x7f].
Proof. intro v. repeat constructor; unfold byte; change 0x7f with (Z.ones 7); rewrite Z.land_ones by lia; pose proof (Z.mod_pos_bound v (2 ^ 7) ltac:(lia)); pose proof (Z.mod_pos_bound (Z.shiftr v 8) (2 ^ 7) ltac:(lia)); change (2 ^ 7) with 128 in *; lia. Qed.
Lemma j7_out : forall buf jch, j213v jch -> uout (fun count n ro r ost => iso2022_jp3_wctomb_j7 buf count jch state wc n ro r ost).
Proof.
  intros buf jch V. destruct V as [->|[(V0 & V1 & V2 & V3)|(V0 & V1)]].
  - (* not in JISX 0213: katakana *)
    destruct (leaf_ok_sound _ _ _ (leaf_jisx0201 wc U)) as [L|(a & A & L)].
    + apply uout_none. intros. unfold iso2022_jp3_wctomb_j7. change (0 =? 0) with true. cbn [negb]. ul L. reflexivity.
    + apply inr1 in A. destruct (a >=? 0x80) eqn:G.
      * pose proof (geb_le' _ _ G) as G'. destruct (state =? 2) eqn:Q.
        -- apply uout_some with [a - 0x80] state; [ubytes|cbn; lia|left; lia|]. intros. unfold iso2022_jp3_wctomb_j7. change (0 =? 0) with true. cbn [negb]. ul L.
           rewrite G, Q. reflexivity.
        -- apply uout_some with [0x1b; 0x28; 0x49; a - 0x80] 2; [ubytes|cbn; lia|left; lia|]. intros. unfold iso2022_jp3_wctomb_j7. change (0 =? 0) with true. cbn [negb]. ul L.
           rewrite G, Q. cbn [negb]. uq. reflexivity.
      * apply uout_none. intros. unfold iso2022_jp3_wctomb_j7. change (0 =? 0) with true. cbn [negb]. ul L. now rewrite G.
  - (* held back *)
    destruct (state =? 4) eqn:Q.
    + pose proof (proj1 (Z.eqb_eq _ _) Q). apply uout_hold with (jp3_word state (Z.land jch 0x7f7f) state); [right; exists state, (Z.land jch 0x7f7f), state; repeat split; lia|].
      intros. unfold iso2022_jp3_wctomb_j7, iso2022_jp3_wctomb_j8. rewrite (proj2 (Z.eqb_neq _ _) V0), V2, Q, (proj2 (Z.eqb_neq _ _) V1). reflexivity.
    + apply uout_esc with [0x1b; 0x24; 0x28; 0x51] [] (jp3_word 4 (Z.land jch 0x7f7f) 4); [ubytes|constructor|cbn; lia|right; exists 4, (Z.land jch 0x7f7f), 4; repeat split; lia|].
      intros. unfold iso2022_jp3_wctomb_j7, iso2022_jp3_wctomb_j8. rewrite (proj2 (Z.eqb_neq _ _) V0), V2, Q, (proj2 (Z.eqb_neq _ _) V1). cbn [negb]. change (0 =? 0) with true. cbn [negb]. uq.
      destruct (Nat.ltb n (Z.to_nat (c + 4))); reflexivity.
  - destruct (Z.land jch 0x8000 =? 0) eqn:P; [destruct (state =? 4) eqn:Q|destruct (state =? 5) eqn:Q].
    + apply uout_some with [Z.land (Z.shiftr jch 8) 0x7f; Z.land jch 0x7f] state; [apply pair7|cbn; lia|left; lia|].
      intros. unfold iso2022_jp3_wctomb_j7, iso2022_jp3_wctomb_j8. rewrite (proj2 (Z.eqb_neq _ _) V0), P, Q, V1. cbn [negb]. change (0 =? 0) with true. cbn [negb]. uq. reflexivity.
    + apply uout_esc with [0x1b; 0x24; 0x28; 0x51] [Z.land (Z.shiftr jch 8) 0x7f; Z.land jch 0x7f] 4; [ubytes|apply pair7|cbn; lia|left; lia|].
      intros. unfold iso2022_jp3_wctomb_j7, iso2022_jp3_wctomb_j8. rewrite (proj2 (Z.eqb_neq _ _) V0), P, Q, V1. cbn [negb]. change (0 =? 0) with true. cbn [negb]. uq. reflexivity.
    + apply uout_some with [Z.land (Z.shiftr jch 8) 0x7f; Z.land jch 0x7f] state; [apply pair7|cbn; lia|left; lia|].
      intros. unfold iso2022_jp3_wctomb_j7, iso2022_jp3_wctomb_j8. rewrite (proj2 (Z.eqb_neq _ _) V0), P, Q, V1. cbn [negb]. change (0 =? 0) with true. cbn [negb]. uq. reflexivity.
    + apply uout_esc with [0x1b; 0x24; 0x28; 0x50] [Z.land (Z.shiftr jch 8) 0x7f; Z.land jch 0x7f] 5; [ubytes|apply pair7|cbn; lia|left; lia|].
      intros. unfold iso2022_jp3_wctomb_j7, iso2022_jp3_wctomb_j8. rewrite (proj2 (Z.eqb_neq _ _) V0), P, Q, V1. cbn [negb]. change (0 =? 0) with true. cbn [negb]. uq. reflexivity.
Qed.
Lemma uout_ext : forall K K', (forall c n ro r ost, K c n ro r ost = K' c n ro r ost) -> uout K' -> uout K.
Proof.
  intros K K' H (o & A & B). exists o. split; [|exact B]. intros ro n r ost N R. specialize (A ro n r ost N R). rewrite H. exact A.
Qed.
Lemma j6_out : forall buf, uout (fun count n ro r ost => iso2022_jp3_wctomb_j6 buf count state wc n ro r ost).
Proof.
  intro buf. destruct (jp3_j213 wc U) as (jch & E & V). fold (j213v jch) in V.
  destruct (leaf_ok_sound _ _ _ (leaf_jisx0208 wc U)) as [L|(a & b & A & L)].
  - apply uout_ext with (2 := j7_out buf jch V). intros. unfold iso2022_jp3_wctomb_j6. rewrite E, bind_ok. ul L. reflexivity.
  - apply inr2 in A. destruct A as (A & B). destruct (Z.land jch 0x80 =? 0) eqn:H.
    + destruct (state =? 3) eqn:Q.
      * apply uout_some with [a; b] state; [ubytes|cbn; lia|left; lia|]. intros. unfold iso2022_jp3_wctomb_j6. rewrite E, bind_ok. ul L.
        rewrite (proj2 (Z.ltb_lt a 128)), (proj2 (Z.ltb_lt b 128)), H, Q by lia. cbn [negb]. uq. reflexivity.
      * apply uout_some with [0x1b; 0x24; 0x42; a; b] 3; [ubytes|cbn; lia|left; lia|]. intros. unfold iso2022_jp3_wctomb_j6. rewrite E, bind_ok. ul L.
        rewrite (proj2 (Z.ltb_lt a 128)), (proj2 (Z.ltb_lt b 128)), H, Q by lia. cbn [negb]. uq. replace (ro + 3 + 1)%nat with (ro + length ([27; 36; 66; a])%Z)%nat by (cbn; lia). rewrite put_more. reflexivity.
    + assert (0 < Z.land jch 0x7f7f < 65536). { destruct V as [->|[(_ & _ & _ & V)|(_ & V)]]; [discriminate H|exact V|rewrite V in H; discriminate H]. }
      apply uout_hold with (jp3_word 3 (Z.land jch 0x7f7f) state); [right; exists 3, (Z.land jch 0x7f7f), state; repeat split; lia|].
      intros. unfold iso2022_jp3_wctomb_j6. rewrite E, bind_ok. ul L. rewrite (proj2 (Z.ltb_lt a 128)), (proj2 (Z.ltb_lt b 128)), H by lia. reflexivity.
Qed.
Lemma j4_out : uout (fun count n ro r ost => iso2022_jp3_wctomb_j4 [] count state wc n ro r ost).
Proof.
  destruct (wc <? 0x80) eqn:W.
  - pose proof (proj1 (Z.ltb_lt _ _) W). assert (L : ascii_wctomb wc 1 = Ok (1, [(0%nat, wc)])) by (unfold ascii_wctomb; rewrite W; reflexivity).
    unfold ucs4 in U. destruct (state =? 0) eqn:Q.
    + apply uout_some with [wc] state; [ubytes|cbn; lia|left; lia|]. intros. unfold iso2022_jp3_wctomb_j4. ul L. rewrite W, Q. reflexivity.
    + apply uout_some with [0x1b; 0x28; 0x42; wc] 0; [ubytes|cbn; lia|left; lia|]. intros. unfold iso2022_jp3_wctomb_j4. ul L. rewrite W, Q. cbn [negb]. uq. reflexivity.
  - assert (L : ascii_wctomb wc 1 = Ok (-1, [])) by (unfold ascii_wctomb; rewrite W; reflexivity).
    destruct (leaf_ok_sound _ _ _ (leaf_jisx0201 wc U)) as [L'|(a & A & L')].
    + apply uout_ext with (2 := j6_out []). intros. unfold iso2022_jp3_wctomb_j4. ul L. unfold iso2022_jp3_wctomb_j5. ul L'. reflexivity.
    + apply inr1 in A. destruct (a <? 0x80) eqn:G.
      * pose proof (proj1 (Z.ltb_lt _ _) G). destruct (state =? 1) eqn:Q.
        -- apply uout_some with [a] state; [ubytes|cbn; lia|left; lia|]. intros. unfold iso2022_jp3_wctomb_j4. ul L. unfold iso2022_jp3_wctomb_j5. ul L'. rewrite G, Q. reflexivity.
        -- apply uout_some with [0x1b; 0x28; 0x4a; a] 1; [ubytes|cbn; lia|left; lia|]. intros. unfold iso2022_jp3_wctomb_j4. ul L. unfold iso2022_jp3_wctomb_j5. ul L'. rewrite G, Q. cbn [negb]. uq. reflexivity.
      * apply uout_ext with (2 := j6_out [(0%nat, a)]). intros. unfold iso2022_jp3_wctomb_j4. ul L. unfold iso2022_jp3_wctomb_j5. ul L'. rewrite G. reflexivity.
Qed.
End CHARACTER.

(** ** The contract *)
Lemma egoal_pre : forall (e : funcs) wc ost pre K, bytes pre -> (length pre <= 6)%nat -> uout K ->
  (forall n, f_wc e wc n ost = if Nat.ltb n (length pre) then Ok (-2, [], ost) else K (Z.of_nat (length pre)) n (length pre) (put 0 pre []) ost) ->
  egoal e jp3_inv wc ost.
Proof.
  intros e wc ost pre K B L (o & H & P) E. destruct o as [[bs st']|].
  - destruct P as (Bb & Lb & I). apply (egoal_ok _ _ _ _ (pre ++ bs) st'); [rewrite app_length; unfold MAXNEED; lia|exact I| |];
    rewrite app_length; intros n N; [|intro N']; rewrite E; destruct (Nat.ltb_spec n (length pre)) as [N0|N0]; try lia;
    try (split; [reflexivity|split; [apply inb_nil|reflexivity]]);
    specialize (H (length pre) n (put 0 pre []) ost N0 (put_inb pre 0 [] n (inb_nil n) B N0)); cbv beta iota in H.
    + rewrite (proj2 (Nat.ltb_lt _ _)) in H by lia. destruct H as (r' & H & R). rewrite H. split; [reflexivity|split; [exact R|reflexivity]].
    + rewrite (proj2 (Nat.ltb_ge _ _)) in H by lia. rewrite H. unfold giving. cbn [fst snd holds]. rewrite app_length.
      split; [reflexivity|split; [|reflexivity]]. cbn [fst snd]. change (length pre) with (0 + length pre)%nat. rewrite put_app. apply put_writes. now apply Forall_app.
  - apply (egoal_ill _ _ _ _ (Nat.max 1 (length pre))); [unfold MAXNEED; lia| |]; intros n N; rewrite E; destruct (Nat.ltb_spec n (length pre)) as [N0|N0]; try lia.
    + split; [reflexivity|split; [apply inb_nil|reflexivity]].
    + specialize (H (length pre) n (put 0 pre []) ost N0 (put_inb pre 0 [] n (inb_nil n) B N0)). cbv beta iota in H. rewrite H.
      split; [reflexivity|split; [|reflexivity]]. cbn [fst snd]. apply put_inb; [apply inb_nil|exact B|exact N0].
Qed.
Lemma jp3_cases : forall ost, jp3_inv ost -> (u16 (Z.shiftr ost 3) = 0 /\ 0 <= Z.land ost 7 <= 5) \/
  (0 < u16 (Z.shiftr ost 3) < 65536 /\ (Z.land ost 7 = 3 /\ 0 <= Z.shiftr ost 0x13 <= 5 \/ Z.land ost 7 = 4 /\ Z.shiftr ost 0x13 = 4)).
Proof.
  intros ost [I|(s & lt & p & -> & L & P)].
  - destruct (jp3_plain ost I) as (A & B & C). left. rewrite C. lia.
  - destruct (jp3_parts s lt p) as (A & B & C); [lia..|]. right. rewrite A, B, C. lia.
Qed.
Lemma pair8 : forall v, bytes [Z.land (Z.shiftr v 8) 0xff; Z.land v 0xff].
Proof. intro v. repeat constructor; unfold byte; change 0xff with (Z.ones 8); rewrite Z.land_ones by lia; apply Z.mod_pos_bound; lia. Qed.
Definition keep (lt p s : Z) : list Z := (if p =? s then [] else [0x1b; 0x24; 0x42]) ++ [Z.land (Z.shiftr lt 8) 0xff; Z.land lt 0xff].
Lemma keep_bytes : forall lt p s, bytes (keep lt p s).
Proof. intros. apply Forall_app. split; [destruct (p =? s); ubytes|apply pair8]. Qed.
Lemma keep_len : forall lt p s, (length (keep lt p s) <= 6)%nat.
Proof. intros. unfold keep. destruct (p =? s); cbn; lia. Qed.
(** The waiting character is not completed: it is written, then wc. *)
Lemma not_combining : forall lt p s wc n ost, (p = s \/ s = 3) ->
  iso2022_jp3_wctomb_not_combining [] lt p s wc n 0 [] ost =
  if Nat.ltb n (length (keep lt p s)) then Ok (-2, [], ost)
  else iso2022_jp3_wctomb_j4 [] (Z.of_nat (length (keep lt p s))) s wc n (length (keep lt p s)) (put 0 (keep lt p s) []) ost.
Proof.
  intros lt p s wc n ost H. unfold iso2022_jp3_wctomb_not_combining, keep. destruct (Z.eqb_spec p s) as [|N]; cbn [negb app length].
  - reflexivity.
  - destruct H as [H| ->]; [contradiction|]. reflexivity.
Qed.
Lemma jp3_comb : forall idx len wc ost, 0 <= idx -> 1 <= len -> idx + len <= 25 -> ucs4 wc -> jp3_inv ost ->
  0 < u16 (Z.shiftr ost 3) < 65536 -> (Z.land ost 7 = 3 /\ 0 <= Z.shiftr ost 0x13 <= 5 \/ Z.land ost 7 = 4 /\ Z.shiftr ost 0x13 = 4) ->
  (forall n, iso2022_jp3_wctomb wc n ost = iso2022_jp3_wctomb_loop 64 [] idx (u16 (Z.shiftr ost 3)) len (Z.shiftr ost 0x13) (Z.land ost 7) wc n 0 [] ost) ->
  egoal enc_iso2022_jp3 jp3_inv wc ost.
Proof.
  intros idx len wc ost A B C U I J1 J2 H. destruct (comb_loop' idx len (u16 (Z.shiftr ost 3)) A B C) as (i & l & A' & B' & C' & E).
  destruct (Z.eq_dec l 0) as [->|N].
  - apply (egoal_pre _ _ _ (keep (u16 (Z.shiftr ost 3)) (Z.shiftr ost 0x13) (Z.land ost 7)) _ (keep_bytes _ _ _) (keep_len _ _ _) (j4_out (Z.land ost 7) wc ltac:(lia) U)).
    intro n. change (f_wc enc_iso2022_jp3 wc n ost) with (iso2022_jp3_wctomb wc n ost). rewrite H, E. unfold iso2022_jp3_wctomb_j. change (0 >? 0) with false. cbv iota.
    apply not_combining. lia.
  - destruct (ti_iso2022_jp3_comp_table_data (2 * i + 1) ltac:(lia)) as (v & V & R).
    pose (bs := (if Z.land ost 7 =? 4 then [] else [0x1b; 0x24; 0x28; 0x51]) ++ [Z.land (Z.shiftr v 8) 0xff; Z.land v 0xff]).
    assert (Bb : bytes bs). { apply Forall_app. split; [destruct (Z.land ost 7 =? 4); ubytes|apply pair8]. }
    assert (Lb : (length bs <= 6)%nat). { unfold bs. destruct (Z.land ost 7 =? 4); cbn; lia. }
    apply (egoal_pre _ _ _ [] (fun c n ro r ost => if Nat.ltb n (Z.to_nat (c + Z.of_nat (length bs))) then Ok (-2, r, ost) else Ok (c + Z.of_nat (length bs), put ro bs r, 4)));
      [constructor|cbn; lia|apply uout_some with bs 4; [exact Bb|exact Lb|left; lia|reflexivity]|].
    intro n. change (f_wc enc_iso2022_jp3 wc n ost) with (iso2022_jp3_wctomb wc n ost). rewrite H, E. unfold iso2022_jp3_wctomb_j.
    destruct (Z.gtb_spec l 0); [|lia]. unfold bs. destruct (Z.eqb_spec (Z.land ost 7) 4) as [Q|Q]; cbn [negb];
    unfold iso2022_jp3_wctomb_j2, tget; rewrite V; [rewrite Q|]; reflexivity.
Qed.
Lemma enc_iso2022_jp3_ok : enc_ok enc_iso2022_jp3 jp3_inv ucs4.
Proof.
  apply enc_ok_intro; [left; lia| |].
  - intros ost wc I U. destruct (jp3_cases ost I) as [(J1 & J2)|(J1 & J2)].
    + apply (egoal_pre _ _ _ [] _ ltac:(constructor) ltac:(cbn; lia) (j4_out (Z.land ost 7) wc J2 U)).
      intro n. change (f_wc enc_iso2022_jp3 wc n ost) with (iso2022_jp3_wctomb wc n ost). unfold iso2022_jp3_wctomb. cbv zeta. rewrite J1. reflexivity.
    + assert (N : (u16 (Z.shiftr ost 3) =? 0) = false) by (apply Z.eqb_neq; lia).
      destruct (wc =? 0x2e5) eqn:W1; [|destruct (wc =? 0x2e9) eqn:W2; [|destruct (wc =? 0x300) eqn:W3; [|destruct (wc =? 0x301) eqn:W4; [|destruct (wc =? 0x309a) eqn:W5]]]].
      * apply (jp3_comb 0 1); try assumption; try lia. intro n. unfold iso2022_jp3_wctomb. cbv zeta. rewrite N, W1. reflexivity.
      * apply (jp3_comb 1 1); try assumption; try lia. intro n. unfold iso2022_jp3_wctomb. cbv zeta. rewrite N, W1, W2. reflexivity.
      * apply (jp3_comb 2 5); try assumption; try lia. intro n. unfold iso2022_jp3_wctomb. cbv zeta. rewrite N, W1, W2, W3. reflexivity.
      * apply (jp3_comb 7 4); try assumption; try lia. intro n. unfold iso2022_jp3_wctomb. cbv zeta. rewrite N, W1, W2, W3, W4. reflexivity.
      * apply (jp3_comb 0xb 0xe); try assumption; try lia. intro n. unfold iso2022_jp3_wctomb. cbv zeta. rewrite N, W1, W2, W3, W4, W5. reflexivity.
      * apply (egoal_pre _ _ _ (keep (u16 (Z.shiftr ost 3)) (Z.shiftr ost 0x13) (Z.land ost 7)) _ (keep_bytes _ _ _) (keep_len _ _ _) (j4_out (Z.land ost 7) wc ltac:(lia) U)).
        intro n. change (f_wc enc_iso2022_jp3 wc n ost) with (iso2022_jp3_wctomb wc n ost). unfold iso2022_jp3_wctomb. cbv zeta. rewrite N, W1, W2, W3, W4, W5. cbn [negb].
        apply not_combining. lia.
  - intros ost I. change (f_reset enc_iso2022_jp3) with (Some iso2022_jp3_reset). cbv iota.
    destruct (jp3_cases ost I) as [(J1 & J2)|(J1 & J2)].
    + set (bs := if Z.land ost 7 =? 0 then [] else [0x1b; 0x28; 0x42]).
      apply (rgoal_intro _ _ _ bs ost); [unfold bs; destruct (Z.land ost 7 =? 0); unfold MAXNEED; cbn; lia|exact I| |]; intros n L; unfold iso2022_jp3_reset; cbv zeta; rewrite J1;
      unfold bs in *; unfold iso2022_jp3_reset_j2; destruct (Z.land ost 7 =? 0); cbn [negb length] in *; change (0 =? 0) with true; cbn [negb]; try lia.
      * rewrite (proj2 (Nat.ltb_lt n (Z.to_nat (0 + 3)))) by exact L. split; [reflexivity|split; [apply inb_nil|reflexivity]].
      * rewrite (proj2 (Nat.ltb_ge n (Z.to_nat (0 + 0)))) by exact L. split; [reflexivity|split; [apply (put_writes []); constructor|reflexivity]].
      * rewrite (proj2 (Nat.ltb_ge n (Z.to_nat (0 + 3)))) by exact L. split; [reflexivity|split; [|reflexivity]]. apply (put_writes [0x1b; 0x28; 0x42]). ubytes.
    + assert (N : (u16 (Z.shiftr ost 3) =? 0) = false) by (apply Z.eqb_neq; lia).
      set (lt := u16 (Z.shiftr ost 3)) in *. set (p := Z.shiftr ost 0x13) in *. set (s := Z.land ost 7) in *.
      assert (N0 : (s =? 0) = false) by (apply Z.eqb_neq; lia).
      assert (C : (if negb (lt =? 0) then (if negb (p =? s) then 3 else 0) + 2 else 0) + (if negb (s =? 0) then 3 else 0) = Z.of_nat (length (keep lt p s ++ [0x1b; 0x28; 0x42]))).
      { rewrite N, N0. unfold keep. destruct (p =? s); reflexivity. }
      assert (Q : forall n, iso2022_jp3_reset n ost = if Nat.ltb n (length (keep lt p s ++ [0x1b; 0x28; 0x42])) then Ok (-2, [], ost)
        else Ok (Z.of_nat (length (keep lt p s ++ [0x1b; 0x28; 0x42])), put 0 (keep lt p s ++ [0x1b; 0x28; 0x42]) [], ost)).
      { intro n. unfold iso2022_jp3_reset. cbv zeta. fold lt p s. rewrite C, Nat2Z.id. destruct (Nat.ltb n _); [reflexivity|]. rewrite N. cbn [negb].
        unfold iso2022_jp3_reset_j, iso2022_jp3_reset_j2. rewrite N0. cbn [negb]. unfold keep. destruct (Z.eqb_spec p s) as [Y|Y]; cbn [negb]; [reflexivity|].
        destruct J2 as [(J2 & _)|(J2 & J3)]; [rewrite J2; reflexivity|exfalso; apply Y; congruence]. }
      apply (rgoal_intro _ _ _ (keep lt p s ++ [0x1b; 0x28; 0x42]) ost); [rewrite app_length; pose proof (keep_len lt p s); unfold MAXNEED; cbn [length]; lia|exact I| |]; intros n L; rewrite Q.
      * rewrite (proj2 (Nat.ltb_lt _ _)) by exact L. split; [reflexivity|split; [apply inb_nil|reflexivity]].
      * rewrite (proj2 (Nat.ltb_ge _ _)) by exact L. split; [reflexivity|split; [|reflexivity]]. apply put_writes. apply Forall_app. split; [apply keep_bytes|ubytes].
Qed.
