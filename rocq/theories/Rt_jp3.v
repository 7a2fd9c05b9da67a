(** ISO-2022-JP-3 reads back what was written. *)
From Coq Require Import ZArith List Bool Lia.
From Verif Require Import Base Loop Contract LoopLib Reflect Sx Rng EncLib DecLib Spec SpecProps Leaf CharLib UniSpec UniProps Round Unroll RtLib RtHold.
From Verif Require Import TabIn_cjk Tab_jis Conv_uni Conv_sb Conv_set_ja Conv_set_zh Conv_set_ko Conv_cjk Conv_iso2022 Encodings CjkLib Ok_held Ok_jisx Ok_jp3e Ok_isodec7 Rt_jisx.
Import ListNotations.
Open Scope Z_scope.

(** ** The writer, one character *)
(** The escape sequences for the six sets. *)
Definition esc3 (s : Z) : list Z :=
  if s =? 0 then [0x1b; 0x28; 0x42] else if s =? 1 then [0x1b; 0x28; 0x4a] else if s =? 2 then [0x1b; 0x28; 0x49] else
  if s =? 3 then [0x1b; 0x24; 0x42] else if s =? 4 then [0x1b; 0x24; 0x28; 0x51] else [0x1b; 0x24; 0x28; 0x50].
Definition to_set (s s' : Z) : list Z := if s =? s' then [] else esc3 s'.
(** A character is in some set, with bytes bs; or in JISX 0208 (3) or JISX 0213 plane 1 (4), and its code lt waits.  What is written in set s: *)
Definition place (k : option (Z * list Z * Z)) (s : Z) : option (list Z * Z) :=
  match k with
  | None => None
  | Some (s', bs, lt) => if lt =? 0 then Some (to_set s s' ++ bs, s') else if s' =? 3 then Some ([], jp3_word 3 lt s) else Some (to_set s 4, jp3_word 4 lt 4)
  end.
Definition well (k : option (Z * list Z * Z)) : Prop :=
  match k with None => True | Some (s', bs, lt) => bytes bs /\ bs <> [] /\ 0 <= s' <= 5 /\ lt = 0 /\ (length bs <= 2)%nat \/ bs = [] /\ 0 < lt < 65536 /\ (s' = 3 \/ s' = 4) end.
Lemma uok_some : forall K bs st', 
  (forall c n ro r ost, K c n ro r ost = if Nat.ltb n (Z.to_nat (c + Z.of_nat (length bs))) then Ok (-2, r, ost) else Ok (c + Z.of_nat (length bs), put ro bs r, st')) -> uok (Some (bs, st')) K.
Proof.
  intros K bs st' H. intros ro n r ost N R. rewrite H. rewrite <- Nat2Z.inj_add, Nat2Z.id.
  destruct (Nat.ltb n (ro + length bs)); [exists r; auto|reflexivity].
Qed.
Lemma uok_esc : forall K esc bs st', bytes esc ->
  (forall c n ro r ost, K c n ro r ost =
    if Nat.ltb n (Z.to_nat (c + Z.of_nat (length esc))) then Ok (-2, r, ost)
    else if Nat.ltb n (Z.to_nat (c + Z.of_nat (length esc) + Z.of_nat (length bs))) then Ok (-2, put ro esc r, ost)
    else Ok (c + Z.of_nat (length esc) + Z.of_nat (length bs), put (ro + length esc) bs (put ro esc r), st')) -> uok (Some (esc ++ bs, st')) K.
Proof.
  intros K esc bs st' E H.
  intros ro n r ost N R. rewrite H, app_length. rewrite <- !Nat2Z.inj_add, !Nat2Z.id.
  destruct (Nat.ltb_spec n (ro + length esc)), (Nat.ltb_spec n (ro + length esc + length bs)), (Nat.ltb_spec n (ro + (length esc + length bs))); try lia.
  - exists r; auto.
  - exists (put ro esc r). split; [reflexivity|now apply put_inb].
  - rewrite put_app. do 3 f_equal. lia.
Qed.
Lemma uok_hold : forall K st', (forall c n ro r ost, K c n ro r ost = Ok (c, r, st')) -> uok (Some ([], st')) K.
Proof.
  intros K st' H. intros ro n r ost N R. rewrite H. cbn [length put]. rewrite Nat.add_0_r. destruct (Nat.ltb_spec n ro); [lia|reflexivity].
Qed.
Lemma uok_ext : forall o K K', (forall c n ro r ost, K c n ro r ost = K' c n ro r ost) -> uok o K' -> uok o K.
Proof. intros o K K' H A. intros ro n r ost N R. specialize (A ro n r ost N R). rewrite H. exact A. Qed.
Lemma two_set : forall s a, (if s =? a then s else a) = a.
Proof. intros. destruct (Z.eqb_spec s a); congruence. Qed.

Lemma j7_place : forall wc jch, ucs4 wc -> j213v jch -> exists k, well k /\ forall s buf, 0 <= s <= 5 -> uok (place k s) (fun count n ro r ost => iso2022_jp3_wctomb_j7 buf count jch s wc n ro r ost).
Proof.
  intros wc jch U V. destruct V as [->|[(V0 & V1 & V2 & V3)|(V0 & V1)]].
  - destruct (leaf_ok_sound _ _ _ (leaf_jisx0201 wc U)) as [L|(a & A & L)].
    + exists None. split; [exact I|]. intros s buf S ro n r ost N R. unfold iso2022_jp3_wctomb_j7. change (0 =? 0) with true. cbn [negb]. ul L. reflexivity.
    + apply inr1 in A. destruct (a >=? 0x80) eqn:G.
      * pose proof (geb_le' _ _ G) as G'. exists (Some (2, [a - 0x80], 0)). split; [left; split; [ubytes|split; [discriminate|cbn [length]; lia]]|]. intros s buf S. unfold place, to_set. change (0 =? 0) with true. cbv iota. destruct (s =? 2) eqn:Q; cbn [app esc3].
        -- apply uok_some. intros. unfold iso2022_jp3_wctomb_j7. change (0 =? 0) with true. cbn [negb]. ul L. rewrite G, Q. apply Z.eqb_eq in Q. subst s. reflexivity.
        -- change (esc3 2 ++ [a - 128]) with [0x1b; 0x28; 0x49; a - 0x80]. apply uok_some. intros. unfold iso2022_jp3_wctomb_j7. change (0 =? 0) with true. cbn [negb]. ul L.
           rewrite G, Q. cbn [negb]. uq. reflexivity.
      * exists None. split; [exact I|]. intros s buf S ro n r ost N R. unfold iso2022_jp3_wctomb_j7. change (0 =? 0) with true. cbn [negb]. ul L. now rewrite G.
  - exists (Some (4, [], Z.land jch 0x7f7f)). split; [right; auto|]. intros s buf S. unfold place, to_set. rewrite (proj2 (Z.eqb_neq (Z.land jch 32639) 0)) by lia. change (4 =? 3) with false. cbv iota.
    destruct (s =? 4) eqn:Q.
    + apply uok_hold. intros. unfold iso2022_jp3_wctomb_j7, iso2022_jp3_wctomb_j8. rewrite (proj2 (Z.eqb_neq _ _) V0), V2, Q, (proj2 (Z.eqb_neq _ _) V1). apply Z.eqb_eq in Q. subst s. reflexivity.
    + rewrite <- (app_nil_r (esc3 4)). apply uok_esc; [unfold esc3; cbn; ubytes|].
      intros. unfold iso2022_jp3_wctomb_j7, iso2022_jp3_wctomb_j8. rewrite (proj2 (Z.eqb_neq _ _) V0), V2, Q, (proj2 (Z.eqb_neq _ _) V1). cbn [negb]. change (0 =? 0) with true. cbn [negb]. change (esc3 4) with [0x1b; 0x24; 0x28; 0x51]. uq.
      destruct (Nat.ltb n (Z.to_nat (c + 4))); reflexivity.
  - destruct (Z.land jch 0x8000 =? 0) eqn:P.
    + exists (Some (4, [Z.land (Z.shiftr jch 8) 0x7f; Z.land jch 0x7f], 0)). split; [left; split; [apply pair7|split; [discriminate|cbn [length]; lia]]|]. intros s buf S. unfold place, to_set. change (0 =? 0) with true. cbv iota. destruct (s =? 4) eqn:Q.
      * apply uok_some. intros. unfold iso2022_jp3_wctomb_j7, iso2022_jp3_wctomb_j8. rewrite (proj2 (Z.eqb_neq _ _) V0), P, Q, V1. cbn [negb]. change (0 =? 0) with true. cbn [negb]. apply Z.eqb_eq in Q. subst s. uq. reflexivity.
      * apply uok_esc; [unfold esc3; cbn; ubytes|]. intros. unfold iso2022_jp3_wctomb_j7, iso2022_jp3_wctomb_j8. rewrite (proj2 (Z.eqb_neq _ _) V0), P, Q, V1. cbn [negb]. change (0 =? 0) with true. cbn [negb]. change (esc3 4) with [0x1b; 0x24; 0x28; 0x51]. uq. reflexivity.
    + exists (Some (5, [Z.land (Z.shiftr jch 8) 0x7f; Z.land jch 0x7f], 0)). split; [left; split; [apply pair7|split; [discriminate|cbn [length]; lia]]|]. intros s buf S. unfold place, to_set. change (0 =? 0) with true. cbv iota. destruct (s =? 5) eqn:Q.
      * apply uok_some. intros. unfold iso2022_jp3_wctomb_j7, iso2022_jp3_wctomb_j8. rewrite (proj2 (Z.eqb_neq _ _) V0), P, Q, V1. cbn [negb]. change (0 =? 0) with true. cbn [negb]. apply Z.eqb_eq in Q. subst s. uq. reflexivity.
      * apply uok_esc; [unfold esc3; cbn; ubytes|]. intros. unfold iso2022_jp3_wctomb_j7, iso2022_jp3_wctomb_j8. rewrite (proj2 (Z.eqb_neq _ _) V0), P, Q, V1. cbn [negb]. change (0 =? 0) with true. cbn [negb]. change (esc3 5) with [0x1b; 0x24; 0x28; 0x50]. uq. reflexivity.
Qed.
Lemma j6_place : forall wc, ucs4 wc -> exists k, well k /\ forall s buf, 0 <= s <= 5 -> uok (place k s) (fun count n ro r ost => iso2022_jp3_wctomb_j6 buf count s wc n ro r ost).
Proof.
  intros wc U. destruct (jp3_j213 wc U) as (jch & E & V). fold (j213v jch) in V.
  destruct (leaf_ok_sound _ _ _ (leaf_jisx0208 wc U)) as [L|(a & b & A & L)].
  - destruct (j7_place wc jch U V) as (k & W & K). exists k. split; [exact W|]. intros s buf S. apply uok_ext with (2 := K s buf S). intros. unfold iso2022_jp3_wctomb_j6. rewrite E, bind_ok. ul L. reflexivity.
  - apply inr2 in A. destruct A as (A & B). destruct (Z.land jch 0x80 =? 0) eqn:H.
    + exists (Some (3, [a; b], 0)). split; [left; split; [ubytes|split; [discriminate|cbn [length]; lia]]|]. intros s buf S. unfold place, to_set. change (0 =? 0) with true. cbv iota. destruct (s =? 3) eqn:Q.
      * apply uok_some. intros. unfold iso2022_jp3_wctomb_j6. rewrite E, bind_ok. ul L.
        rewrite (proj2 (Z.ltb_lt a 128)), (proj2 (Z.ltb_lt b 128)), H, Q by lia. cbn [negb]. apply Z.eqb_eq in Q. subst s. uq. reflexivity.
      * change (esc3 3 ++ [a; b]) with [0x1b; 0x24; 0x42; a; b]. apply uok_some. intros. unfold iso2022_jp3_wctomb_j6. rewrite E, bind_ok. ul L.
        rewrite (proj2 (Z.ltb_lt a 128)), (proj2 (Z.ltb_lt b 128)), H, Q by lia. cbn [negb]. uq. replace (ro + 3 + 1)%nat with (ro + length ([27; 36; 66; a])%Z)%nat by (cbn; lia). rewrite put_more. reflexivity.
    + assert (0 < Z.land jch 0x7f7f < 65536). { destruct V as [->|[(_ & _ & _ & V)|(_ & V)]]; [discriminate H|exact V|rewrite V in H; discriminate H]. }
      exists (Some (3, [], Z.land jch 0x7f7f)). split; [right; auto|]. intros s buf S. unfold place. rewrite (proj2 (Z.eqb_neq (Z.land jch 32639) 0)) by lia. change (3 =? 3) with true. cbv iota.
      apply uok_hold. intros. unfold iso2022_jp3_wctomb_j6. rewrite E, bind_ok. ul L. rewrite (proj2 (Z.ltb_lt a 128)), (proj2 (Z.ltb_lt b 128)), H by lia. reflexivity.
Qed.
Lemma j4_place : forall wc, ucs4 wc -> exists k, well k /\ forall s, 0 <= s <= 5 -> uok (place k s) (fun count n ro r ost => iso2022_jp3_wctomb_j4 [] count s wc n ro r ost).
Proof.
  intros wc U. destruct (wc <? 0x80) eqn:W.
  - pose proof (proj1 (Z.ltb_lt _ _) W). assert (L : ascii_wctomb wc 1 = Ok (1, [(0%nat, wc)])) by (unfold ascii_wctomb; rewrite W; reflexivity).
    unfold ucs4 in U. exists (Some (0, [wc], 0)). split; [left; split; [ubytes|split; [discriminate|cbn [length]; lia]]|]. intros s S. unfold place, to_set. change (0 =? 0) with true. cbv iota. destruct (s =? 0) eqn:Q.
    + apply uok_some. intros. unfold iso2022_jp3_wctomb_j4. ul L. rewrite W, Q. apply Z.eqb_eq in Q. subst s. reflexivity.
    + change (esc3 0 ++ [wc]) with [0x1b; 0x28; 0x42; wc]. apply uok_some. intros. unfold iso2022_jp3_wctomb_j4. ul L. rewrite W, Q. cbn [negb]. uq. reflexivity.
  - assert (L : ascii_wctomb wc 1 = Ok (-1, [])) by (unfold ascii_wctomb; rewrite W; reflexivity).
    destruct (leaf_ok_sound _ _ _ (leaf_jisx0201 wc U)) as [L'|(a & A & L')].
    + destruct (j6_place wc U) as (k & Wk & K). exists k. split; [exact Wk|]. intros s S. apply uok_ext with (2 := K s [] S). intros. unfold iso2022_jp3_wctomb_j4. ul L. unfold iso2022_jp3_wctomb_j5. ul L'. reflexivity.
    + apply inr1 in A. destruct (a <? 0x80) eqn:G.
      * pose proof (proj1 (Z.ltb_lt _ _) G). exists (Some (1, [a], 0)). split; [left; split; [ubytes|split; [discriminate|cbn [length]; lia]]|]. intros s S. unfold place, to_set. change (0 =? 0) with true. cbv iota. destruct (s =? 1) eqn:Q.
        -- apply uok_some. intros. unfold iso2022_jp3_wctomb_j4. ul L. unfold iso2022_jp3_wctomb_j5. ul L'. rewrite G, Q. apply Z.eqb_eq in Q. subst s. reflexivity.
        -- change (esc3 1 ++ [a]) with [0x1b; 0x28; 0x4a; a]. apply uok_some. intros. unfold iso2022_jp3_wctomb_j4. ul L. unfold iso2022_jp3_wctomb_j5. ul L'. rewrite G, Q. cbn [negb]. uq. reflexivity.
      * destruct (j6_place wc U) as (k & Wk & K). exists k. split; [exact Wk|]. intros s S. apply uok_ext with (2 := K s [(0%nat, a)] S). intros. unfold iso2022_jp3_wctomb_j4. ul L. unfold iso2022_jp3_wctomb_j5. ul L'. rewrite G. reflexivity.
Qed.

(** ** Whole texts *)
(** Reader and writer in step, but the reader is late by the characters [lag], and by the bytes [pre]. *)
Record late (f : funcs) (P : Z -> Prop) (rel : Z -> Z * Z -> list Z -> list Z -> Prop) : Prop := {
  la_init : rel 0 (0, 0) [] [];
  la_tag : forall c, P c -> tag c = false;
  la_char : forall c o bs o' i lag pre t u skip, P c -> rel o i lag pre -> emit f c o = Some (bs, o') -> bytes (pre ++ bs ++ t) -> Z.of_nat (length (pre ++ bs ++ t)) <= LIM ->
    exists i' got lag' pre', rel o' i' lag' pre' /\ takes f u skip (pre ++ bs ++ t) i got (pre' ++ t) i' /\ lag ++ [c] = got ++ lag' /\ bytes pre' /\ (length pre' <= length pre + length bs)%nat;
  la_end : forall o i lag pre u skip, rel o i lag pre -> bytes (pre ++ closing f o) -> Z.of_nat (length (pre ++ closing f o)) <= LIM ->
    exists got i', reads f u skip (pre ++ closing f o) i got AtEnd [] i' /\ got ++ held f (fst i') = lag }.
Lemma late_carries : forall f P rel, late f P rel -> carries f P.
Proof.
  intros f P rel S skip skip' u cs out o C W B0 L0.
  enough (G : forall o0 i lag pre out o, writes_all f skip cs o0 = (out, 0%nat, o, []) -> rel o0 i lag pre -> bytes (pre ++ out ++ closing f o) -> Z.of_nat (length (pre ++ out ++ closing f o)) <= LIM ->
    exists cs0 j, reads f u skip' (pre ++ out ++ closing f o) i cs0 AtEnd [] j /\ cs0 ++ held f (fst j) = lag ++ cs).
  { exact (G 0 (0, 0) [] [] out o W (la_init f P rel S) B0 L0). }
  clear out o W B0 L0.
  induction cs as [|c cs IH]; intros o0 i lag pre out o W R B L; cbn in W.
  - inversion W; subst. destruct (la_end f P rel S o i lag pre u skip' R B L) as (got & i' & Q & Hd). exists got, i'. rewrite app_nil_r. auto.
  - inversion C as [|? ? C1 C2]; subst. unfold write1 in W. destruct (emit f c o0) as [[bs o1]|] eqn:E.
    + destruct (writes_all f skip cs o1) as [[[out1 n1] o2] bad] eqn:W1. inversion W; subst. rewrite <- (app_assoc bs) in *.
      destruct (la_char f P rel S c o0 bs o1 i lag pre (out1 ++ closing f o) u skip') as (i' & got & lag' & pre' & R' & T & G & B' & L'); auto.
      unfold bytes in B. rewrite !Forall_app in B. rewrite !app_length in L.
      destruct (IH C2 o1 i' lag' pre' out1 o W1 R') as (cs0 & j & Q & Hd); [unfold bytes; rewrite !Forall_app; tauto|rewrite !app_length; lia|].
      exists (got ++ cs0), j. split; [eapply takes_reads; eauto|].
      rewrite <- app_assoc, Hd, app_assoc, <- G, <- app_assoc. reflexivity.
    + rewrite (la_tag f P rel S c C1) in W.
      destruct skip; [|destruct (emit f 0xfffd o0) as [[x y]|]; [|discriminate]];
        [destruct (writes_all f true cs o0) as [[[? ?] ?] ?]|destruct (writes_all f false cs y) as [[[? ?] ?] ?]]; inversion W.
Qed.

Notation jp3 := enc_iso2022_jp3.
(** The characters that may wait: set, code, character. *)
Definition bases3 : list (Z * Z * Z) := Eval vm_compute in
  flat_map (fun s => flat_map (fun v => let lt := Z.land v 0x7f7f in
    match dec jp3 (two lt) (s, 0) with Some (DChar 2 b (ist, _)) => if ist =? s then [(s, lt, b)] else [] | _ => [] end) j213_first) [3; 4].
Definition in3 (s lt b : Z) : bool := existsb (fun '(s', lt', b') => if s =? s' then (if lt =? lt' then b =? b' else false) else false) bases3.
Lemma in3_In : forall s lt b, in3 s lt b = true -> In (s, lt, b) bases3.
Proof.
  intros s lt b H. unfold in3 in H. apply existsb_exists in H. destruct H as (((s', lt'), b') & I & H).
  destruct (Z.eqb_spec s s'); [|discriminate]. destruct (Z.eqb_spec lt lt'); [|discriminate]. apply Z.eqb_eq in H. now subst.
Qed.
Lemma bases3_dec : forall s lt b, In (s, lt, b) bases3 -> dec jp3 (two lt) (s, 0) = Some (DChar 2 b (s, 0)) /\ 0 < lt < 65536 /\ (s = 3 \/ s = 4).
Proof.
  assert (A : forallb (fun '(s, lt, b) => match dec jp3 (two lt) (s, 0) with Some (DChar 2 b' (ist, ibo)) => (b' =? b) && (ist =? s) && (ibo =? 0) && (0 <? lt) && (lt <? 65536) && ((s =? 3) || (s =? 4)) | _ => false end) bases3 = true) by (vm_cast_no_check (eq_refl true)).
  intros s lt b I. rewrite forallb_forall in A. specialize (A _ I). cbv beta iota in A.
  destruct (dec jp3 (two lt) (s, 0)) as [[[|[|[|k]]] b' (ist, ibo)| |]|]; try discriminate.
  rewrite !andb_true_iff, orb_true_iff, !Z.eqb_eq, !Z.ltb_lt in A. destruct A as (((((-> & ->) & ->) & ?) & ?) & ?). auto.
Qed.

(** *** The writer *)
Lemma esc3_bytes : forall s, bytes (esc3 s).
Proof. intro s. unfold esc3. repeat match goal with |- context [if ?b then _ else _] => destruct b end; ubytes. Qed.
Lemma esc3_len : forall s, (3 <= length (esc3 s) <= 4)%nat.
Proof. intro s. unfold esc3. repeat match goal with |- context [if ?b then _ else _] => destruct b end; cbn; lia. Qed.
Lemma place_fits : forall k s bs o, well k -> place k s = Some (bs, o) -> bytes bs /\ (length bs <= 6)%nat.
Proof.
  intros [((s', b), lt)|] s bs o W E; [|discriminate]. unfold place in E.
  assert (T : forall x, bytes (to_set s x) /\ (length (to_set s x) <= 4)%nat).
  { intro x. unfold to_set. destruct (s =? x); [split; [constructor|cbn; lia]|]. split; [apply esc3_bytes|]. pose proof (esc3_len x). lia. }
  destruct W as [(B & N & R & -> & L)|(-> & R & D)].
  - change (0 =? 0) with true in E. cbv iota in E. injection E as <- _. destruct (T s'). split; [now apply Forall_app|]. rewrite app_length. lia.
  - destruct (Z.eqb_spec lt 0); [lia|]. set (w3 := jp3_word 3 lt s) in E. set (w4 := jp3_word 4 lt 4) in E. clearbody w3 w4. destruct (s' =? 3); injection E as <- _; [split; [constructor|cbn; lia]|]. destruct (T 4). split; [assumption|lia].
Qed.
Lemma uok_emit : forall k s c o pre, well k -> bytes pre -> (length pre <= 6)%nat ->
  uok (place k s) (fun count n ro r ost => iso2022_jp3_wctomb_j4 [] count s c n ro r ost) ->
  f_wc jp3 c 16%nat o = iso2022_jp3_wctomb_j4 [] (Z.of_nat (length pre)) s c 16 (length pre) (put 0 pre []) o ->
  emit jp3 c o = match place k s with None => None | Some (bs, o') => Some (pre ++ bs, o') end.
Proof.
  intros k s c o pre W B L U E. specialize (U (length pre) 16%nat (put 0 pre []) o ltac:(lia) (put_inb pre 0 [] 16 (inb_nil 16) B ltac:(lia))). cbv beta in U. rewrite <- E in U.
  destruct (place k s) as [(bs, o')|] eqn:P.
  - destruct (place_fits _ _ _ _ W P) as (B1 & L1). rewrite (proj2 (Nat.ltb_ge _ _)) in U by lia.
    apply emit_put; [|now apply Forall_app]. rewrite U, app_length. change (length pre) with (0 + length pre)%nat at 2. now rewrite put_app.
  - unfold emit. rewrite U. reflexivity.
Qed.
Lemma jp3_emit : forall c, ucs4 c -> exists k, well k /\ (forall x, 0 <= x <= 5 -> emit jp3 c x = place k x) /\
  forall s lt p, 0 < lt < 65536 -> (s = 3 /\ 0 <= p <= 5 \/ s = 4 /\ p = 4) -> ~ In c [0x2e5; 0x2e9; 0x300; 0x301; 0x309a] ->
    emit jp3 c (jp3_word s lt p) = match place k s with None => None | Some (bs, o') => Some (keep lt p s ++ bs, o') end.
Proof.
  intros c U. destruct (j4_place c U) as (k & W & K). exists k. split; [exact W|]. split.
  - intros x X. rewrite (uok_emit k x c x [] W); [destruct (place k x) as [(bs, o')|]; reflexivity|constructor|cbn; lia|now apply K|].
    change (f_wc jp3 c 16%nat x) with (iso2022_jp3_wctomb c 16 x). unfold iso2022_jp3_wctomb. cbv zeta. destruct (jp3_plain x X) as (A & _ & C). rewrite A, C. reflexivity.
  - intros s lt p L D N. apply (uok_emit k s c _ (keep lt p s) W (keep_bytes _ _ _) (keep_len _ _ _)); [apply K; lia|].
    change (f_wc jp3 c 16%nat (jp3_word s lt p)) with (iso2022_jp3_wctomb c 16 (jp3_word s lt p)). unfold iso2022_jp3_wctomb. cbv zeta. destruct (jp3_parts s lt p) as (A & B & C); [lia..|]. rewrite A, B, C.
    destruct (Z.eqb_spec lt 0); [lia|]. cbn [negb]. cbn [In] in N.
    repeat match goal with |- context [c =? ?v] => destruct (Z.eqb_spec c v); [exfalso; apply N; auto 10|] end.
    rewrite not_combining by lia. rewrite (proj2 (Nat.ltb_ge _ _)) by (pose proof (keep_len lt p s); lia). reflexivity.
Qed.

(** *** The reader *)
Lemma esc3_few : forall x s, 0 <= x <= 5 -> 0 <= s <= 5 -> dec jp3 (esc3 s) (x, 0) = Some (DFew (length (esc3 s)) (s, 0)).
Proof.
  assert (A : forallb (fun x => forallb (fun s => match dec jp3 (esc3 s) (x, 0) with Some (DFew k (ist, ibo)) => Nat.eqb k (length (esc3 s)) && (ist =? s) && (ibo =? 0) | _ => false end) [0; 1; 2; 3; 4; 5]) [0; 1; 2; 3; 4; 5] = true)
    by (vm_cast_no_check (eq_refl true)).
  intros x s X S. rewrite forallb_forall in A. specialize (A x ltac:(cbn; lia)). rewrite forallb_forall in A. specialize (A s ltac:(cbn; lia)). cbv beta in A.
  destruct (dec jp3 (esc3 s) (x, 0)) as [[|k (ist, ibo)|]|]; try discriminate. rewrite !andb_true_iff, Nat.eqb_eq, !Z.eqb_eq in A. destruct A as ((-> & ->) & ->). reflexivity.
Qed.
Lemma plain_dinv : forall x, 0 <= x <= 5 -> jp3_dinv (x, 0).
Proof. intros x X. split; [|reflexivity]. apply mem_In. cbn. lia. Qed.
(** Behind an escape sequence, the reader goes on in the other set. *)
Lemma esc3_then : forall x s r, 0 <= x <= 5 -> 0 <= s <= 5 -> r <> [] -> bytes r -> Z.of_nat (length (esc3 s ++ r)) <= LIM ->
  dec jp3 (esc3 s ++ r) (x, 0) = Some (DFew (length (esc3 s)) (s, 0)) \/
  exists d, dec jp3 r (s, 0) = Some d /\ dec jp3 (esc3 s ++ r) (x, 0) = Some (dshift (length (esc3 s)) d).
Proof.
  intros x s r X Hs N B L. pose proof (esc3_few x s X Hs) as F. pose proof (esc3_len s) as E. destruct (length (esc3 s)) as [|k] eqn:K; [lia|].
  pose proof (s_few _ _ (proj2 dec_iso2022_jp3_ok) (esc3 s) r (x, 0) k (s, 0) (plain_dinv x X) (esc3_bytes s) B L) as G.
  assert (Ks : skipn (S k) (esc3 s) = []) by (rewrite <- K; apply skipn_all). rewrite Ks in G. cbn [app] in G. apply G; auto. intro H. rewrite H in K. discriminate.
Qed.
Definition opens (x s : Z) (pre : list Z) : Prop := pre = [] /\ x = s \/ pre = esc3 s.
Lemma to_set_opens : forall x s, opens x s (to_set x s).
Proof. intros x s. unfold to_set, opens. destruct (Z.eqb_spec x s); auto. Qed.
Lemma opens_takes : forall x s pre bs t c i' u skip, 0 <= x <= 5 -> 0 <= s <= 5 -> opens x s pre -> bs <> [] -> dec jp3 bs (s, 0) = Some (DChar (length bs) c i') ->
  bytes (pre ++ bs ++ t) -> Z.of_nat (length (pre ++ bs ++ t)) <= LIM -> takes jp3 u skip (pre ++ bs ++ t) (x, 0) [c] t i'.
Proof.
  intros x s pre bs t c i' u skip X Hs O N D B L.
  assert (B2 : bytes (bs ++ t)) by (unfold bytes in B; apply Forall_app in B; apply B).
  assert (D2 : dec jp3 (bs ++ t) (s, 0) = Some (DChar (length bs) c i')).
  { unfold bytes in B2. apply Forall_app in B2. apply (s_char _ _ (proj2 dec_iso2022_jp3_ok)); auto using plain_dinv; try apply B2. rewrite app_length in L. lia. }
  assert (N2 : bs ++ t <> []) by (destruct bs; [contradiction|discriminate]).
  assert (T : takes jp3 u skip (bs ++ t) (s, 0) [c] t i').
  { eapply takes_char; [exact N2|exact D2|]. rewrite skipn_app, skipn_all, Nat.sub_diag. apply takes_none. }
  destruct O as [(-> & ->)| ->]; [exact T|].
  assert (N3 : esc3 s ++ bs ++ t <> []) by (pose proof (esc3_len s); destruct (esc3 s); [cbn in *; lia|discriminate]).
  destruct (esc3_then x s (bs ++ t) X Hs N2 B2 L) as [F|(d & Dd & F)].
  - pose proof (esc3_len s) as E. destruct (length (esc3 s)) as [|k] eqn:K; [lia|]. eapply takes_shift; [exact N3|exact F|].
    rewrite skipn_app, K, Nat.sub_diag, <- K, skipn_all. exact T.
  - rewrite D2 in Dd. injection Dd as <-. cbn [dshift] in F. eapply takes_char; [exact N3|exact F|].
    rewrite skipn_app, skipn_app, skipn_all2, skipn_all2 by lia. replace (length (esc3 s) + length bs - length (esc3 s) - length bs)%nat with 0%nat by lia. apply takes_none.
Qed.
(** A waiting character of the reader comes first. *)
Lemma jp3_pend_out : forall w s u skip, mem jp3_ists w = true -> s <> [] -> takes jp3 u skip s (w, 0) (some (Z.shiftr w 3) (Z.shiftr w 3)) s (Z.land w 7, 0).
Proof.
  intros w s u skip M N. apply mem_In in M. cbn [In jp3_ists] in M.
  repeat (destruct M as [<-|M]; [first [apply takes_none | eapply takes_char; [exact N|reflexivity|cbn [skipn]; apply takes_none]]|]). contradiction.
Qed.
Lemma jp3_held : forall w, mem jp3_ists w = true -> held jp3 w = some (Z.shiftr w 3) (Z.shiftr w 3) /\ 0 <= Z.land w 7 <= 5.
Proof. intros w M. apply mem_In in M. cbn [In jp3_ists] in M. repeat (destruct M as [<-|M]; [split; [reflexivity|split; discriminate]|]). contradiction. Qed.

(** One character, written in ASCII state. *)
Definition chk3 (c : Z) : bool :=
  if c =? 0x1b then true else match emit jp3 c 0 with
  | None => true
  | Some (bs, o) =>
    if o <? 8 then match dec jp3 bs (0, 0) with Some (DChar k d (ist, ibo)) => if Nat.eqb k (length bs) then (if d =? c then (if ist =? o then ibo =? 0 else false) else false) else false | _ => false end
    else in3 (Z.land o 7) (u16 (Z.shiftr o 3)) c
  end.
Lemma j0208_pages : forallb (fun r => iv_all (Z.to_nat ((snd r - fst r + 63) / 64)) (fst r / 64) (fun g => if mem j213_pages g then true else
  iv_all 64 (64 * g) (fun c => match jisx0208_wctomb c 2 with Ok (-1, []) => true | _ => false end))) [(0, 0x100); (0x300, 0x480); (0x2000, 0x2340); (0x2500, 0x2680); (0x3000, 0x3100); (0x4e00, 0x9fc0); (0xff00, 0x10000)] = true.
Proof. vm_cast_no_check (eq_refl true). Qed.
Lemma j0208_out : forall c, ucs4 c -> covered [(0, 0x100); (0x300, 0x480); (0x2000, 0x2340); (0x2500, 0x2680); (0x3000, 0x3100); (0x4e00, 0x9fc0); (0xff00, 0x10000)] c = false ->
  holds (jisx0208_wctomb c 2) (fun x => x = (-1, [])).
Proof. let c := fresh "wc" in let U := fresh "U" in let K := fresh "K" in intros c U K; unfold ucs4 in U; sx; first [outside | reflexivity]. Qed.
Lemma j0208_none : forall c, ucs4 c -> mem j213_pages (Z.shiftr c 6) = false -> jisx0208_wctomb c 2 = Ok (-1, []).
Proof.
  intros c U M. destruct (covered [(0, 0x100); (0x300, 0x480); (0x2000, 0x2340); (0x2500, 0x2680); (0x3000, 0x3100); (0x4e00, 0x9fc0); (0xff00, 0x10000)] c) eqn:K.
  - pose proof j0208_pages as J. rewrite forallb_forall in J. unfold covered in K. apply existsb_exists in K. destruct K as ((lo, hi) & I & R). specialize (J _ I). cbn [fst snd] in *.
    rewrite Z.shiftr_div_pow2 in M by lia. change (2 ^ 6) with 64 in M. pose proof (Z.div_mod c 64 ltac:(lia)). pose proof (Z.mod_pos_bound c 64 ltac:(lia)).
    assert (G : lo / 64 <= c / 64 < lo / 64 + Z.of_nat (Z.to_nat ((hi - lo + 63) / 64))).
    { cbn [In] in I. repeat (destruct I as [I|I]; [injection I as <- <-; match goal with |- ?a <= _ < ?b => let x := eval vm_compute in a in let y := eval vm_compute in b in change a with x; change b with y end; lia|]). contradiction. }
    pose proof (iv_all_sound _ _ _ J (c / 64) G) as Q. cbv beta in Q. rewrite M in Q. pose proof (iv_all_sound _ _ _ Q c ltac:(lia)) as V. cbv beta in V.
    destruct (jisx0208_wctomb c 2) as [([|?|[?|?|]], [|? ?])| | |]; try discriminate. reflexivity.
  - pose proof (j0208_out c U K) as V. destruct (jisx0208_wctomb c 2) as [r| | |]; cbn in V; try contradiction. now subst.
Qed.
Lemma j0201_none : forall c, ucs4 c -> ~ special c -> jisx0201_wctomb c 1 = Ok (-1, []).
Proof.
  intros c U N. unfold special in N. assert (V : holds (jisx0201_wctomb c 1) (fun x => x = (-1, []))) by (unfold ucs4 in U; unfold jisx0201_wctomb; sx; first [reflexivity|lia]).
  destruct (jisx0201_wctomb c 1) as [r| | |]; cbn in V; try contradiction. now subst.
Qed.
Lemma special_dec : forall c, {special c} + {~ special c}.
Proof. intro c. unfold special. destruct (Z_lt_dec c 256); [left; lia|]. destruct (Z.eq_dec c 0x203e); [left; lia|]. destruct (Z_le_dec 0xff61 c); [|right; lia]. destruct (Z_le_dec c 0xff9f); [left|right]; lia. Qed.
Lemma chk3_sweep : paged chk3 = true.
Proof. vm_cast_no_check (eq_refl true). Qed.
Lemma chk3_all : forall c, ucs4 c -> chk3 c = true.
Proof.
  intros c U. destruct (special_dec c) as [Sp|Sp]; [apply paged_use; auto using chk3_sweep|].
  destruct (mem j213_pages (Z.shiftr c 6)) eqn:M; [apply paged_use; auto using chk3_sweep|].
  assert (L1 : ascii_wctomb c 1 = Ok (-1, [])) by (unfold ascii_wctomb; unfold special in Sp; rewrite (proj2 (Z.ltb_ge c 128)) by lia; reflexivity).
  pose proof (j0201_none c U Sp) as L2. pose proof (j0208_none c U M) as L3. pose proof (j213_none c U M) as L4.
  unfold chk3. destruct (c =? 0x1b); [reflexivity|]. replace (emit jp3 c 0) with (@None (list Z * Z)); [reflexivity|].
  unfold emit. change (f_wc jp3 c 16%nat 0) with (iso2022_jp3_wctomb_j4 [] 0 0 c 16 0 [] 0). unfold iso2022_jp3_wctomb_j4. ul L1. unfold iso2022_jp3_wctomb_j5. ul L2.
  unfold iso2022_jp3_wctomb_j6. rewrite L4, bind_ok. ul L3. unfold iso2022_jp3_wctomb_j7. change (0 =? 0) with true. cbn [negb]. ul L2. reflexivity.
Qed.
(** What the reader makes of the bytes of a character. *)
Lemma place_dec : forall c k, ucs4 c -> c <> 0x1b -> well k -> (forall x, 0 <= x <= 5 -> emit jp3 c x = place k x) ->
  match k with
  | None => True
  | Some (s, bs, lt) => lt = 0 /\ bs <> [] /\ 0 <= s <= 5 /\ dec jp3 bs (s, 0) = Some (DChar (length bs) c (s, 0)) \/ lt <> 0 /\ In (s, lt, c) bases3
  end.
Proof.
  intros c [((s, bs), lt)|] U N W E; [|exact I]. pose proof (chk3_all c U) as C. unfold chk3 in C. destruct (Z.eqb_spec c 0x1b); [contradiction|]. rewrite (E 0) in C by lia.
  unfold place in C. destruct W as [(B & Nb & R & -> & L)|(-> & R & D)].
  - left. change (0 =? 0) with true in C. cbv iota in C. rewrite (proj2 (Z.ltb_lt s 8)) in C by lia. split; [reflexivity|]. split; [exact Nb|]. split; [exact R|].
    destruct (dec jp3 (to_set 0 s ++ bs) (0, 0)) as [[kk d (ist, ibo)| |]|] eqn:Q; try discriminate. destruct (Nat.eqb_spec kk (length (to_set 0 s ++ bs))); [|discriminate].
    destruct (Z.eqb_spec d c); [|discriminate]. destruct (Z.eqb_spec ist s); [|discriminate]. apply Z.eqb_eq in C. subst kk d ist ibo.
    unfold to_set in Q. destruct (Z.eqb_spec 0 s) as [<-|Ns]; [exact Q|].
    destruct (esc3_then 0 s bs ltac:(lia) R Nb B) as [F|(d & Dd & F)].
    + rewrite app_length. pose proof (esc3_len s). unfold LIM. lia.
    + rewrite F in Q. discriminate Q.
    + rewrite F in Q. rewrite Dd. destruct d as [kk d i'| |]; cbn [dshift] in Q; try discriminate Q. rewrite app_length in Q. injection Q as Q1 -> ->. do 2 f_equal. lia.
  - right. destruct (Z.eqb_spec lt 0); [lia|]. split; [assumption|]. destruct (Z.eqb_spec s 3) as [->|N3].
    + rewrite (proj2 (Z.ltb_ge _ 8)) in C by (rewrite jp3_word_val; lia). destruct (jp3_parts 3 lt 0) as (A & _ & A'); [lia..|]. rewrite A, A' in C. now apply in3_In.
    + destruct D as [->| ->]; [lia|]. rewrite (proj2 (Z.ltb_ge _ 8)) in C by (rewrite jp3_word_val; lia). destruct (jp3_parts 4 lt 4) as (A & _ & A'); [lia..|]. rewrite A, A' in C. now apply in3_In.
Qed.

(** *** Writer and reader *)
Definition jp3_rel (o : Z) (i : Z * Z) (lag pre : list Z) : Prop := exists w, i = (w, 0) /\ mem jp3_ists w = true /\
  (o = Z.land w 7 /\ pre = [] /\ lag = some (Z.shiftr w 3) (Z.shiftr w 3) \/
   exists s lt b p, In (s, lt, b) bases3 /\ o = jp3_word s lt p /\ lag = some (Z.shiftr w 3) (Z.shiftr w 3) ++ [b] /\
     (s = 3 /\ p = Z.land w 7 /\ pre = [] \/ s = 4 /\ p = 4 /\ pre = to_set (Z.land w 7) 4)).
Lemma to_set_small : forall x s, bytes (to_set x s).
Proof. intros x s. unfold to_set. destruct (x =? s); [constructor|apply esc3_bytes]. Qed.
Lemma plain_mem : forall s, 0 <= s <= 5 -> mem jp3_ists s = true /\ Z.land s 7 = s /\ Z.shiftr s 3 = 0.
Proof. intros s R. assert (D : s = 0 \/ s = 1 \/ s = 2 \/ s = 3 \/ s = 4 \/ s = 5) by lia. destruct D as [->|[->|[->|[->|[->| ->]]]]]; repeat split. Qed.
(** Nothing waits in the writer. *)
Lemma jp3_fresh : forall c k w bs o' t u skip, ucs4 c -> c <> 0x1b -> well k -> (forall x, 0 <= x <= 5 -> emit jp3 c x = place k x) -> mem jp3_ists w = true ->
  place k (Z.land w 7) = Some (bs, o') -> bytes (bs ++ t) -> Z.of_nat (length (bs ++ t)) <= LIM ->
  exists i' got lag' pre', jp3_rel o' i' lag' pre' /\ takes jp3 u skip (bs ++ t) (w, 0) got (pre' ++ t) i' /\ some (Z.shiftr w 3) (Z.shiftr w 3) ++ [c] = got ++ lag' /\ bytes pre' /\ (length pre' <= length bs)%nat.
Proof.
  intros c k w bs o' t u skip U N W E M P B L. pose proof (place_dec c k U N W E) as D. destruct (jp3_held w M) as (_ & X). destruct k as [((s, b), lt)|]; [|discriminate P]. unfold place in P.
  destruct D as [(-> & Nb & R & D)|(Nl & I)].
  - change (0 =? 0) with true in P. cbv iota in P. injection P as <- <-. rewrite <- app_assoc in *. destruct (plain_mem s R) as (P1 & P2 & P3).
    exists (s, 0), (some (Z.shiftr w 3) (Z.shiftr w 3) ++ [c]), [], []. split; [exists s; split; [reflexivity|]; split; [exact P1|]; left; rewrite P2, P3; auto|].
    split; [|split; [now rewrite app_nil_r|split; [constructor|cbn; lia]]].
    eapply takes_app; [apply jp3_pend_out; auto; destruct (to_set (Z.land w 7) s); [destruct b; [congruence|discriminate]|discriminate]|].
    apply (opens_takes (Z.land w 7) s); auto using to_set_opens.
  - destruct (Z.eqb_spec lt 0); [contradiction|]. destruct (bases3_dec _ _ _ I) as (_ & Rl & Ds).
    destruct (Z.eqb_spec s 3) as [->|N3].
    + set (w3 := jp3_word 3 lt (Z.land w 7)) in P. assert (Ew : w3 = jp3_word 3 lt (Z.land w 7)) by reflexivity. clearbody w3. injection P as <- <-. exists (w, 0), [], (some (Z.shiftr w 3) (Z.shiftr w 3) ++ [c]), [].
      split; [|split; [apply takes_none|split; [reflexivity|split; [constructor|cbn; lia]]]].
      exists w. split; [reflexivity|]. split; [exact M|]. right. exists 3, lt, c, (Z.land w 7). repeat split; auto.
    + destruct Ds as [->| ->]; [lia|]. set (w4 := jp3_word 4 lt 4) in P. assert (Ew : w4 = jp3_word 4 lt 4) by reflexivity. clearbody w4. injection P as <- <-. exists (w, 0), [], (some (Z.shiftr w 3) (Z.shiftr w 3) ++ [c]), (to_set (Z.land w 7) 4).
      split; [|split; [apply takes_none|split; [reflexivity|split; [apply to_set_small|lia]]]].
      exists w. split; [reflexivity|]. split; [exact M|]. right. exists 4, lt, c, 4. repeat split; auto.
Qed.
(** A character waits in the writer: it is written first. *)
Lemma keep_is : forall w lt s p pre, s = 3 /\ p = Z.land w 7 /\ pre = [] \/ s = 4 /\ p = 4 /\ pre = to_set (Z.land w 7) 4 -> pre ++ keep lt p s = to_set (Z.land w 7) s ++ two lt.
Proof. intros w lt s p pre [(-> & -> & ->)|(-> & -> & ->)]; unfold keep, to_set, two; [reflexivity|]. reflexivity. Qed.
Lemma jp3_waited : forall w s lt b rest u skip, mem jp3_ists w = true -> In (s, lt, b) bases3 -> bytes (to_set (Z.land w 7) s ++ two lt ++ rest) -> Z.of_nat (length (to_set (Z.land w 7) s ++ two lt ++ rest)) <= LIM ->
  takes jp3 u skip (to_set (Z.land w 7) s ++ two lt ++ rest) (w, 0) (some (Z.shiftr w 3) (Z.shiftr w 3) ++ [b]) rest (s, 0).
Proof.
  intros w s lt b rest u skip M I B L. destruct (bases3_dec _ _ _ I) as (D & Rl & Ds). destruct (jp3_held w M) as (_ & X).
  eapply takes_app; [apply jp3_pend_out; auto; destruct (to_set (Z.land w 7) s); discriminate|]. apply (opens_takes (Z.land w 7) s); auto using to_set_opens; [lia|discriminate].
Qed.
(** It may be that the two together have one code. *)
Fixpoint leq (a b : list Z) : bool := match a, b with [], [] => true | x :: a, y :: b => if x =? y then leq a b else false | _, _ => false end.
Lemma leq_eq : forall a b, leq a b = true -> a = b.
Proof. induction a as [|x a IH]; intros [|y b] H; cbn in H; try discriminate; auto. destruct (Z.eqb_spec x y); [|discriminate]. f_equal; auto. Qed.
Definition marks3 : list Z := [0x2e5; 0x2e9; 0x300; 0x301; 0x309a].
Definition pair3 (s lt b p c : Z) : bool :=
  match emit jp3 c (jp3_word s lt p) with
  | None => true
  | Some (bs, o') =>
    if match emit jp3 c s with Some (bs0, o0) => if o' =? o0 then leq bs (keep lt p s ++ bs0) else false | None => false end then true else
    let v := skipn (length (to_set s 4)) bs in
    if o' =? 4 then (if leq bs (to_set s 4 ++ v) then (if Nat.eqb (length v) 2 then
      match dec jp3 v (4, 0) with Some (DChar 2 d (ist, ibo)) => if d =? b then (if ist =? 4 + 8 * c then (if ibo =? 0 then mem jp3_ists (4 + 8 * c) else false) else false) else false | _ => false end
    else false) else false) else false
  end.
Lemma pairs3 : forallb (fun '(s, lt, b) => forallb (fun p => forallb (fun c => pair3 s lt b p c) marks3) (if s =? 3 then [0; 1; 2; 3; 4; 5] else [4])) bases3 = true.
Proof. vm_cast_no_check (eq_refl true). Qed.
Lemma pair3_use : forall s lt b p c bs o', In (s, lt, b) bases3 -> s = 3 /\ 0 <= p <= 5 \/ s = 4 /\ p = 4 -> In c marks3 -> emit jp3 c (jp3_word s lt p) = Some (bs, o') ->
  (exists bs0, emit jp3 c s = Some (bs0, o') /\ bs = keep lt p s ++ bs0) \/
  (o' = 4 /\ exists v, bs = to_set s 4 ++ v /\ length v = 2%nat /\ dec jp3 v (4, 0) = Some (DChar 2 b (4 + 8 * c, 0)) /\ mem jp3_ists (4 + 8 * c) = true).
Proof.
  intros s lt b p c bs o' I Hs Hc E. pose proof pairs3 as A. rewrite forallb_forall in A. specialize (A _ I). cbv beta iota in A. rewrite forallb_forall in A.
  assert (Ip : In p (if s =? 3 then [0; 1; 2; 3; 4; 5] else [4])) by (destruct Hs as [(-> & R)|(-> & ->)]; [change (3 =? 3) with true; cbn; lia|change (4 =? 3) with false; cbn; auto]).
  specialize (A p Ip). rewrite forallb_forall in A. specialize (A c Hc). unfold pair3 in A. rewrite E in A.
  set (old := match emit jp3 c s with Some (bs0, o0) => if o' =? o0 then leq bs (keep lt p s ++ bs0) else false | None => false end) in A. destruct old eqn:O.
  - left. unfold old in O. destruct (emit jp3 c s) as [(bs0, o0)|]; [|discriminate]. destruct (Z.eqb_spec o' o0); [|discriminate]. exists bs0. split; [congruence|now apply leq_eq].
  - right. clear O old. cbv zeta in A. destruct (Z.eqb_spec o' 4); [|discriminate]. split; [assumption|]. set (v := skipn (length (to_set s 4)) bs) in A. exists v. clearbody v.
    destruct (leq bs (to_set s 4 ++ v)) eqn:Q; [|discriminate]. apply leq_eq in Q. split; [exact Q|]. destruct (Nat.eqb_spec (length v) 2); [|discriminate]. split; [assumption|].
    destruct (dec jp3 v (4, 0)) as [[[|[|[|n]]] d (ist, ibo)| |]|]; try discriminate. destruct (Z.eqb_spec d b); [|discriminate]. destruct (Z.eqb_spec ist (4 + 8 * c)); [|discriminate].
    destruct (Z.eqb_spec ibo 0); [|discriminate]. subst. auto.
Qed.
Lemma mark_word : forall c, In c marks3 -> c <> 0 /\ Z.land (4 + 8 * c) 7 = 4 /\ Z.shiftr (4 + 8 * c) 3 = c.
Proof. intros c I. cbn [In marks3] in I. repeat (destruct I as [<-|I]; [split; [lia|split; reflexivity]|]). contradiction. Qed.
Lemma jp3_next : forall c o bs o' i lag pre t u skip, plain [0x1b] c -> jp3_rel o i lag pre -> emit jp3 c o = Some (bs, o') -> bytes (pre ++ bs ++ t) -> Z.of_nat (length (pre ++ bs ++ t)) <= LIM ->
  exists i' got lag' pre', jp3_rel o' i' lag' pre' /\ takes jp3 u skip (pre ++ bs ++ t) i got (pre' ++ t) i' /\ lag ++ [c] = got ++ lag' /\ bytes pre' /\ (length pre' <= length pre + length bs)%nat.
Proof.
  intros c o bs o' i lag pre t u skip (Sc & Tc & Nc) (w & -> & M & H) E B L. pose proof (scalar_ucs4 c Sc) as U. assert (N : c <> 0x1b) by (intros ->; apply Nc; left; reflexivity).
  destruct (jp3_emit c U) as (k & W & K1 & K2). destruct (jp3_held w M) as (_ & X).
  destruct H as [(-> & -> & ->)|(s & lt & b & p & I & -> & -> & Q)].
  - rewrite (K1 _ X) in E. cbn [app length Nat.add] in *. apply (jp3_fresh c k w bs o' t u skip); auto.
  - destruct (bases3_dec _ _ _ I) as (D & Rl & Ds). assert (Qp : s = 3 /\ 0 <= p <= 5 \/ s = 4 /\ p = 4) by (destruct Q as [(-> & -> & _)|(-> & -> & _)]; auto).
    assert (Rs : 0 <= s <= 5) by lia. destruct (plain_mem s Rs) as (P1 & P2 & P3).
    assert (Hold : forall bs0, place k s = Some (bs0, o') -> bs = keep lt p s ++ bs0 -> exists i' got lag' pre', jp3_rel o' i' lag' pre' /\ takes jp3 u skip (pre ++ bs ++ t) (w, 0) got (pre' ++ t) i' /\ (some (Z.shiftr w 3) (Z.shiftr w 3) ++ [b]) ++ [c] = got ++ lag' /\ bytes pre' /\ (length pre' <= length pre + length bs)%nat).
    { intros bs0 Pl ->. assert (Eq : pre ++ (keep lt p s ++ bs0) ++ t = to_set (Z.land w 7) s ++ two lt ++ bs0 ++ t) by (rewrite !app_assoc; rewrite (keep_is w lt s p pre Q); reflexivity).
      rewrite Eq in *. pose proof (jp3_waited w s lt b (bs0 ++ t) u skip M I B L) as T1.
      assert (B2 : bytes (bs0 ++ t)) by (unfold bytes in *; rewrite !Forall_app in *; tauto). assert (L2 : Z.of_nat (length (bs0 ++ t)) <= LIM) by (rewrite !app_length in L; rewrite !app_length; clear - L; lia).
      destruct (jp3_fresh c k s bs0 o' t u skip) as (i' & got & lag' & pre' & R' & T & G & B' & L'); auto; [now rewrite P2|].
      rewrite P3 in G. change (some 0 0) with (@nil Z) in G. cbn [app] in G.
      exists i', ((some (Z.shiftr w 3) (Z.shiftr w 3) ++ [b]) ++ got), lag', pre'. split; [exact R'|]. split; [eapply takes_app; eauto|]. split; [rewrite <- !app_assoc; rewrite <- G; reflexivity|].
      split; [exact B'|]. rewrite app_length. lia. }
    destruct (in_dec Z.eq_dec c marks3) as [Mc|Mc].
    + destruct (pair3_use s lt b p c bs o' I Qp Mc E) as [(bs0 & E0 & Eb)|(-> & v & -> & Lv & Dv & Mv)]; [apply (Hold bs0); auto; rewrite <- (K1 s Rs); exact E0|].
      destruct (mark_word c Mc) as (Nz & W1 & W2).
      assert (Op : opens (Z.land w 7) 4 (pre ++ to_set s 4)).
      { destruct Q as [(-> & -> & ->)|(-> & -> & ->)]; [right; reflexivity|]. change (to_set 4 4) with (@nil Z). rewrite app_nil_r. apply to_set_opens. }
      assert (Eq : pre ++ (to_set s 4 ++ v) ++ t = (pre ++ to_set s 4) ++ v ++ t) by now rewrite !app_assoc.
      rewrite Eq in *. set (op := pre ++ to_set s 4) in *. clearbody op. assert (Nv : v <> []) by (intros ->; discriminate Lv).
      exists (4 + 8 * c, 0), (some (Z.shiftr w 3) (Z.shiftr w 3) ++ [b]), [c], []. split; [|split; [|split; [reflexivity|split; [constructor|cbn; lia]]]].
      * exists (4 + 8 * c). split; [reflexivity|]. split; [exact Mv|]. left. rewrite W1, W2. unfold some. destruct (Z.eqb_spec c 0); [contradiction|]. auto.
      * eapply takes_app; [apply jp3_pend_out; auto; destruct op; [destruct v; [congruence|discriminate]|discriminate]|].
        apply (opens_takes (Z.land w 7) 4); auto; [lia|]. now rewrite Lv.
    + rewrite (K2 s lt p Rl Qp Mc) in E. destruct (place k s) as [(bs0, o0)|] eqn:Pl; [|discriminate]. injection E as <- <-. apply (Hold bs0); auto.
Qed.
(** The end of the text. *)
Lemma close_plain : forall x, 0 <= x <= 5 -> closing jp3 x = to_set x 0.
Proof. intros x R. assert (D : x = 0 \/ x = 1 \/ x = 2 \/ x = 3 \/ x = 4 \/ x = 5) by lia. destruct D as [->|[->|[->|[->|[->| ->]]]]]; reflexivity. Qed.
Lemma close_held : forall s lt b p, In (s, lt, b) bases3 -> s = 3 /\ 0 <= p <= 5 \/ s = 4 /\ p = 4 -> closing jp3 (jp3_word s lt p) = keep lt p s ++ esc3 0.
Proof.
  assert (A : forallb (fun '(s, lt, b) => forallb (fun p => leq (closing jp3 (jp3_word s lt p)) (keep lt p s ++ esc3 0)) (if s =? 3 then [0; 1; 2; 3; 4; 5] else [4])) bases3 = true) by (vm_cast_no_check (eq_refl true)).
  intros s lt b p I Hs. rewrite forallb_forall in A. specialize (A _ I). cbv beta iota in A. rewrite forallb_forall in A. apply leq_eq. apply A.
  destruct Hs as [(-> & R)|(-> & ->)]; [change (3 =? 3) with true; cbn; lia|change (4 =? 3) with false; cbn; auto].
Qed.
Lemma back_to_ascii : forall x u skip, 0 <= x <= 5 -> takes jp3 u skip (esc3 0) (x, 0) [] [] (0, 0).
Proof. intros x u skip X. pose proof (esc3_few x 0 X ltac:(lia)) as F. eapply takes_shift; [discriminate|exact F|]. apply takes_none. Qed.
Lemma jp3_end : forall o i lag pre u skip, jp3_rel o i lag pre -> bytes (pre ++ closing jp3 o) -> Z.of_nat (length (pre ++ closing jp3 o)) <= LIM ->
  exists got i', reads jp3 u skip (pre ++ closing jp3 o) i got AtEnd [] i' /\ got ++ held jp3 (fst i') = lag.
Proof.
  intros o i lag pre u skip (w & -> & M & H) B L. destruct (jp3_held w M) as (Hw & X). destruct H as [(-> & -> & ->)|(s & lt & b & p & I & -> & -> & Q)].
  - cbn [app] in *. rewrite (close_plain _ X) in *. unfold to_set. destruct (Z.eqb_spec (Z.land w 7) 0).
    + exists [], (w, 0). split; [constructor|exact Hw].
    + exists (some (Z.shiftr w 3) (Z.shiftr w 3)), (0, 0). split; [|cbn [fst]; apply app_nil_r]. rewrite <- (app_nil_r (some (Z.shiftr w 3) (Z.shiftr w 3))).
      eapply takes_reads; [apply jp3_pend_out; [exact M|discriminate]|]. change (@nil Z) with (@nil Z ++ []) at 1. eapply takes_reads; [apply back_to_ascii; exact X|constructor].
  - assert (Qp : s = 3 /\ 0 <= p <= 5 \/ s = 4 /\ p = 4) by (destruct Q as [(-> & -> & _)|(-> & -> & _)]; auto). destruct (bases3_dec _ _ _ I) as (_ & _ & Ds).
    rewrite (close_held s lt b p I Qp) in *. rewrite app_assoc, (keep_is w lt s p pre Q), <- app_assoc in *.
    exists (some (Z.shiftr w 3) (Z.shiftr w 3) ++ [b]), (0, 0). split; [|cbn [fst]; apply app_nil_r]. rewrite <- (app_nil_r (some (Z.shiftr w 3) (Z.shiftr w 3) ++ [b])).
    eapply takes_reads; [apply (jp3_waited w s lt b (esc3 0) u skip M I B L)|]. change (@nil Z) with (@nil Z ++ []) at 1. eapply takes_reads; [apply back_to_ascii; lia|constructor].
Qed.
Lemma iso2022_jp3_carries : carries enc_iso2022_jp3 (plain [0x1b]).
Proof.
  apply (late_carries _ _ jp3_rel). constructor.
  - exists 0. split; [reflexivity|]. split; [reflexivity|]. left. repeat split.
  - intros c (_ & T & _). exact T.
  - exact jp3_next.
  - exact jp3_end.
Qed.
