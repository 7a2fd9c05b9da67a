(** Encodings that hold back a character, when writing as well as when reading: general part. *)
From Coq Require Import ZArith List Bool Lia.
From Verif Require Import Base Loop Contract LoopLib Reflect Sx Rng EncLib DecLib Spec SpecProps Leaf CharLib UniSpec Round Unroll RtLib.
Import ListNotations.
Open Scope Z_scope.

(** Reader and writer in step, but the reader is late by the characters [lag]. *)
Record lagging (f : funcs) (P : Z -> Prop) (rel : Z -> Z * Z -> list Z -> Prop) : Prop := {
  lg_init : rel 0 (0, 0) [];
  lg_tag : forall c o i lag, P c -> rel o i lag -> tag c = true -> emit f c o <> None;
  lg_char : forall c o bs o' i lag t u skip, P c -> rel o i lag -> emit f c o = Some (bs, o') -> bytes (bs ++ t) -> Z.of_nat (length (bs ++ t)) <= LIM ->
    exists i' got lag', rel o' i' lag' /\ takes f u skip (bs ++ t) i got t i' /\ lag ++ [c] = got ++ lag';
  lg_end : forall o i lag u skip, rel o i lag -> bytes (closing f o) -> Z.of_nat (length (closing f o)) <= LIM ->
    exists got i', reads f u skip (closing f o) i got AtEnd [] i' /\ got ++ held f (fst i') = lag }.
Lemma lag_carries : forall f P rel, lagging f P rel -> carries f P.
Proof.
  intros f P rel S skip skip' u cs out o C W B0 L0.
  enough (G : forall o0 i lag out o, writes_all f skip cs o0 = (out, 0%nat, o, []) -> rel o0 i lag -> bytes (out ++ closing f o) -> Z.of_nat (length (out ++ closing f o)) <= LIM ->
    exists cs0 j, reads f u skip' (out ++ closing f o) i cs0 AtEnd [] j /\ cs0 ++ held f (fst j) = lag ++ cs).
  { exact (G 0 (0, 0) [] out o W (lg_init f P rel S) B0 L0). }
  clear out o W B0 L0.
  induction cs as [|c cs IH]; intros o0 i lag out o W R B L; cbn in W.
  - inversion W; subst. destruct (lg_end f P rel S o i lag u skip' R B L) as (got & i' & Q & Hd). exists got, i'. rewrite app_nil_r. auto.
  - inversion C as [|? ? C1 C2]; subst. unfold write1 in W. destruct (emit f c o0) as [[bs o1]|] eqn:E.
    + destruct (writes_all f skip cs o1) as [[[out1 n1] o2] bad] eqn:W1. inversion W; subst. rewrite <- app_assoc in *.
      destruct (lg_char f P rel S c o0 bs o1 i lag (out1 ++ closing f o) u skip') as (i' & got & lag' & R' & T & G); auto.
      apply Forall_app in B. rewrite app_length in L. destruct (IH C2 o1 i' lag' out1 o W1 R' (proj2 B)) as (cs0 & j & Q & Hd); [lia|].
      exists (got ++ cs0), j. split; [eapply takes_reads; eauto|].
      rewrite <- app_assoc, Hd, app_assoc, <- G, <- app_assoc. reflexivity.
    + destruct (tag c) eqn:G; [exfalso; exact (lg_tag f P rel S c o0 i lag C1 R G E)|].
      destruct skip; [|destruct (emit f 0xfffd o0) as [[x y]|]; [|discriminate]];
        [destruct (writes_all f true cs o0) as [[[? ?] ?] ?]|destruct (writes_all f false cs y) as [[[? ?] ?] ?]]; inversion W.
Qed.
Lemma takes_app : forall f u skip s i cs1 r i1 cs2 r2 i2, takes f u skip s i cs1 r i1 -> takes f u skip r i1 cs2 r2 i2 -> takes f u skip s i (cs1 ++ cs2) r2 i2.
Proof.
  intros f u skip s i cs1 r i1 cs2 r2 i2 T. revert cs2 r2 i2. induction T; intros cs2 r2 j2 R; cbn.
  - exact R.
  - eapply takes_char; eauto.
  - eapply takes_shift; eauto.
  - eapply takes_skip; eauto.
Qed.

Section HOLD.
(** [sts]: the states of the writer, each but 0 standing for a character held back; [dsts]: those of the reader, each but 0 is the character held back. *)
Variables (f : funcs) (P : Z -> Prop) (sts dsts : list Z).
(** The character held back by the writer: the one its closing bytes stand for. *)
Definition base (o : Z) : Z := match dec f (closing f o) (0, 0) with Some (DChar _ c _) => c | _ => 0 end.
Definition is_char (bs : list Z) (c second : Z) : bool :=
  match bs with
  | [] => false
  | _ => match dec f bs (0, 0) with
    | Some (DChar k d (ist, ibo)) => if Nat.eqb k (length bs) then (if d =? c then (if ist =? second then ibo =? 0 else false) else false) else false
    | _ => false end
  end.
Lemma is_char_use : forall bs c second, is_char bs c second = true -> bs <> [] /\ dec f bs (0, 0) = Some (DChar (length bs) c (second, 0)).
Proof.
  intros bs c second H. unfold is_char in H. destruct bs as [|b bs]; [discriminate|]. split; [discriminate|].
  destruct (dec f (b :: bs) (0, 0)) as [[k d [ist ibo]| |]|]; try discriminate. destruct (Nat.eqb_spec k (length (b :: bs))); [|discriminate].
  destruct (Z.eqb_spec d c); [|discriminate]. destruct (Z.eqb_spec ist second); [|discriminate]. apply Z.eqb_eq in H. subst. reflexivity.
Qed.
(** Nothing held back: c is written, and reads as itself; or is held back. *)
Definition fresh1 (c : Z) : bool :=
  match emit f c 0 with
  | None => true
  | Some (bs, o) => if o =? 0 then is_char bs c 0 else match bs with [] => if mem sts o then base o =? c else false | _ => false end
  end.
Definition closes (o : Z) : bool := if o =? 0 then match closing f o with [] => true | _ => false end else is_char (closing f o) (base o) 0.
Definition holds1 (d : Z) : bool := match held f d with [] => d =? 0 | [c] => if d =? 0 then false else c =? d | _ => false end.

Hypothesis NT : forall c, P c -> tag c = false.
Hypothesis ST0 : mem sts 0 = true.
Hypothesis D0 : mem dsts 0 = true.
Hypothesis FRESH : forall c, P c -> fresh1 c = true.
Hypothesis CLOSE : forallb closes sts = true.
Hypothesis HELD : forallb holds1 dsts = true.
Hypothesis PEND : forall s p, p <> 0 -> dec f s (p, 0) = Some (DChar 0 p (0, 0)).
Hypothesis STAB : dec_stable f (dfin (mem dsts)).
(** Something held back: its bytes are written first, or it makes a pair with c. *)
Hypothesis NEXT : forall c o bs o', P c -> mem sts o = true -> o <> 0 -> emit f c o = Some (bs, o') ->
  (exists bs0, emit f c 0 = Some (bs0, o') /\ bs = closing f o ++ bs0) \/ (o' = 0 /\ mem dsts c = true /\ c <> 0 /\ is_char bs (base o) c = true).

Definition some (x y : Z) : list Z := if x =? 0 then [] else [y].
Definition hold_rel (o : Z) (i : Z * Z) (lag : list Z) : Prop :=
  mem sts o = true /\ mem dsts (fst i) = true /\ snd i = 0 /\ lag = some (fst i) (fst i) ++ some o (base o).
Lemma one_char : forall bs c second t u skip, is_char bs c second = true -> bytes (bs ++ t) -> Z.of_nat (length (bs ++ t)) <= LIM -> takes f u skip (bs ++ t) (0, 0) [c] t (second, 0).
Proof.
  intros bs c second t u skip H B L. apply is_char_use in H. destruct H as (N & D). unfold bytes in B. apply Forall_app in B. destruct B as (B1 & B2).
  eapply takes_char; [|exact (s_char _ _ STAB bs t (0, 0) _ _ _ (conj D0 eq_refl) B1 B2 L N D)|].
  - destruct bs; [congruence|discriminate].
  - rewrite skipn_app, skipn_all, Nat.sub_diag. apply takes_none.
Qed.
(** Before anything else, the character held back by the reader comes out. *)
Lemma pending_out : forall d s u skip, s <> [] -> takes f u skip s (d, 0) (some d d) s (0, 0).
Proof.
  intros d s u skip N. unfold some. destruct (Z.eqb_spec d 0) as [->|Nz]; [apply takes_none|].
  eapply takes_char; [exact N|exact (PEND s d Nz)|]. cbn [skipn]. apply takes_none.
Qed.
Lemma fresh_step : forall c bs o' t u skip, P c -> emit f c 0 = Some (bs, o') -> bytes (bs ++ t) -> Z.of_nat (length (bs ++ t)) <= LIM ->
  mem sts o' = true /\ (bs <> [] /\ o' = 0 /\ takes f u skip (bs ++ t) (0, 0) [c] t (0, 0) \/ bs = [] /\ o' <> 0 /\ base o' = c).
Proof.
  intros c bs o' t u skip Pc E B L. pose proof (FRESH c Pc) as F. unfold fresh1 in F. rewrite E in F. destruct (Z.eqb_spec o' 0) as [->|No].
  - split; [exact ST0|]. left. split; [|split; [reflexivity|now apply one_char]]. now apply is_char_use in F.
  - destruct bs; [|discriminate]. destruct (mem sts o') eqn:M; [|discriminate]. apply Z.eqb_eq in F. auto.
Qed.
Lemma closing_char : forall o, mem sts o = true -> o <> 0 -> is_char (closing f o) (base o) 0 = true.
Proof.
  intros o M N. rewrite forallb_forall in CLOSE. specialize (CLOSE o (proj1 (mem_In _ _) M)). unfold closes in CLOSE. destruct (Z.eqb_spec o 0); [contradiction|exact CLOSE].
Qed.
Lemma hold_carries : carries f P.
Proof.
  apply (lag_carries f P hold_rel). constructor.
  - split; [exact ST0|]. split; [exact D0|]. split; reflexivity.
  - intros c o i lag Pc _ T. rewrite (NT c Pc) in T. discriminate.
  - intros c o bs o' (d, ibo) lag t u skip Pc (Mo & Md & Zi & ->) E B L. cbn [fst snd] in *. subst ibo.
    destruct (Z.eq_dec o 0) as [->|No].
    + destruct (fresh_step c bs o' t u skip Pc E B L) as (M' & [(Nb & -> & T)|(-> & N' & Eb)]).
      * exists (0, 0), (some d d ++ [c]), []. split; [split; [exact ST0|split; [exact D0|split; reflexivity]]|]. split.
        -- eapply takes_app; [apply pending_out|exact T]. destruct bs; [congruence|discriminate].
        -- change (some 0 (base 0)) with (@nil Z). now rewrite !app_nil_r.
      * exists (d, 0), [], (some d d ++ [c]). split; [split; [exact M'|split; [exact Md|split; [reflexivity|]]]|split; [apply takes_none|]].
        -- cbn [fst]. f_equal. unfold some. destruct (Z.eqb_spec o' 0); [contradiction|]. now rewrite Eb.
        -- change (some 0 (base 0)) with (@nil Z). now rewrite app_nil_r.
    + assert (So : some o (base o) = [base o]) by (unfold some; destruct (Z.eqb_spec o 0); [contradiction|reflexivity]). rewrite So.
      pose proof (closing_char o Mo No) as Cl.
      destruct (NEXT c o bs o' Pc Mo No E) as [(bs0 & E0 & ->)|(-> & Mc & Nc & G)].
      * pose proof (proj1 (is_char_use _ _ _ Cl)) as Nn. rewrite <- app_assoc in *.
        pose proof (one_char _ _ _ (bs0 ++ t) u skip Cl B L) as T1.
        assert (T2 : takes f u skip (closing f o ++ bs0 ++ t) (d, 0) (some d d ++ [base o]) (bs0 ++ t) (0, 0)).
        { eapply takes_app; [apply pending_out|exact T1]. destruct (closing f o); [congruence|discriminate]. }
        unfold bytes in B. apply Forall_app in B. rewrite app_length in L.
        destruct (fresh_step c bs0 o' t u skip Pc E0 (proj2 B) ltac:(lia)) as (M' & [(Nb & -> & T)|(-> & N' & Eb)]).
        -- exists (0, 0), ((some d d ++ [base o]) ++ [c]), []. split; [split; [exact ST0|split; [exact D0|split; reflexivity]]|]. split; [eapply takes_app; eauto|now rewrite app_nil_r].
        -- exists (0, 0), (some d d ++ [base o]), [c]. split; [split; [exact M'|split; [exact D0|split; [reflexivity|]]]|]. 
           ++ unfold some. destruct (Z.eqb_spec o' 0); [contradiction|]. cbn. now rewrite Eb.
           ++ split; [exact T2|reflexivity].
      * pose proof (proj1 (is_char_use _ _ _ G)) as Nn.
        exists (c, 0), (some d d ++ [base o]), [c]. split; [split; [exact ST0|split; [exact Mc|split; [reflexivity|]]]|].
        -- cbn [fst]. unfold some. destruct (Z.eqb_spec c 0); [contradiction|]. reflexivity.
        -- split; [|reflexivity]. eapply takes_app; [apply pending_out|apply one_char; eauto]. destruct bs; [congruence|discriminate].
  - intros o (d, ibo) lag u skip (Mo & Md & Zi & ->) B L. cbn [fst snd] in *. subst ibo.
    pose proof HELD as He. rewrite forallb_forall in He.
    assert (Hd : forall x, mem dsts x = true -> held f x = some x x).
    { intros x M. specialize (He x (proj1 (mem_In _ _) M)). unfold holds1 in He. unfold some. destruct (held f x) as [|y [|z l]]; [now rewrite He| |discriminate].
      destruct (Z.eqb_spec x 0); [discriminate|]. apply Z.eqb_eq in He. now subst. }
    destruct (Z.eq_dec o 0) as [->|No].
    + rewrite forallb_forall in CLOSE. specialize (CLOSE 0 (proj1 (mem_In _ _) ST0)). unfold closes in CLOSE. cbn [Z.eqb] in CLOSE.
      destruct (closing f 0); [|discriminate]. exists [], (d, 0). split; [constructor|]. cbn [fst]. rewrite (Hd d Md). change (some 0 (base 0)) with (@nil Z). now rewrite app_nil_r.
    + assert (So : some o (base o) = [base o]) by (unfold some; destruct (Z.eqb_spec o 0); [contradiction|reflexivity]). rewrite So.
      pose proof (closing_char o Mo No) as Cl. pose proof (proj1 (is_char_use _ _ _ Cl)) as Nn.
      pose proof (one_char (closing f o) (base o) 0 [] u skip Cl) as T. rewrite app_nil_r in T. specialize (T B L).
      exists (some d d ++ [base o]), (0, 0). cbn [fst]. rewrite (Hd 0 D0). change (some 0 0) with (@nil Z). rewrite app_nil_r. split; [|reflexivity].
      rewrite <- (app_nil_r (some d d ++ [base o])). eapply takes_reads; [eapply takes_app; [apply pending_out|exact T]|constructor]. exact Nn.
Qed.
End HOLD.
