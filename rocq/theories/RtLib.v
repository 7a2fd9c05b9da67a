(** Charsets read back what they write, and a tool to carry this over to the encodings that switch between charsets. *)
From Coq Require Import ZArith List Bool Lia.
From Verif Require Import Base Loop Contract LoopLib Reflect Sx Rng EncLib DecLib Spec SpecProps Leaf CharLib UniSpec Round DLeaf Unroll.
Import ListNotations.
Open Scope Z_scope.

(** ** Charsets *)
(** If the encoder writes two bytes for c, the decoder makes c of them. *)
Definition back2 (g : Z -> nat -> res (Z * wlog)) (h : list Z -> nat -> res (Z * option Z)) (c : Z) : bool :=
  match g c 2%nat with
  | Ok (2, l) =>
    match lfind l 0%nat, lfind l 1%nat with
    | Some a, Some b => match h [a; b] 2%nat with Ok (2, Some d) => d =? c | _ => false end
    | _, _ => false
    end
  | _ => true
  end.
Definition back_check (g : Z -> nat -> res (Z * wlog)) (h : list Z -> nat -> res (Z * option Z)) (ivs : ranges) : bool :=
  forallb (fun r => iv_all (Z.to_nat (snd r - fst r)) (fst r) (back2 g h)) ivs.
Lemma back_all : forall g h ivs, (forall c, ucs4 c -> covered ivs c = false -> holds (g c 2%nat) (fun x => fst x < 0)) ->
  back_check g h ivs = true -> forall c, ucs4 c -> back2 g h c = true.
Proof.
  intros g h ivs Out C c U. destruct (covered ivs c) eqn:K.
  - unfold covered in K. apply existsb_exists in K. destruct K as ((lo, hi) & I & R). cbn [fst snd] in R.
    unfold back_check in C. rewrite forallb_forall in C. specialize (C _ I). cbn [fst snd] in C. apply (iv_all_sound _ _ _ C). lia.
  - specialize (Out c U K). unfold back2. destruct (g c 2%nat) as [[r l]| | |]; cbn in Out; try contradiction.
    destruct r as [|[?|[?|?|]|]|?]; try reflexivity; lia.
Qed.
Lemma back2_use : forall g h c a b l, back2 g h c = true -> g c 2%nat = Ok (2, l) -> lfind l 0%nat = Some a -> lfind l 1%nat = Some b -> h [a; b] 2%nat = Ok (2, Some c).
Proof.
  intros g h c a b l H E A B. unfold back2 in H. rewrite E, A, B in H. destruct (h [a; b] 2%nat) as [[r w]| | |]; try discriminate.
  destruct r as [|[?|[?|?|]|]|?]; try discriminate. destruct w as [d|]; [|discriminate]. apply Z.eqb_eq in H. now subst.
Qed.

Definition back1 (g : Z -> nat -> res (Z * wlog)) (h : list Z -> nat -> res (Z * option Z)) (c : Z) : bool :=
  match g c 1%nat with
  | Ok (1, l) =>
    match lfind l 0%nat with
    | Some a => match h [a] 1%nat with Ok (1, Some d) => d =? c | _ => false end
    | None => false
    end
  | _ => true
  end.
Lemma back1_all : forall g h ivs, (forall c, ucs4 c -> covered ivs c = false -> holds (g c 1%nat) (fun x => fst x < 0)) ->
  forallb (fun r => iv_all (Z.to_nat (snd r - fst r)) (fst r) (back1 g h)) ivs = true -> forall c, ucs4 c -> back1 g h c = true.
Proof.
  intros g h ivs Out C c U. destruct (covered ivs c) eqn:K.
  - unfold covered in K. apply existsb_exists in K. destruct K as ((lo, hi) & I & R). cbn [fst snd] in R.
    rewrite forallb_forall in C. specialize (C _ I). cbn [fst snd] in C. apply (iv_all_sound _ _ _ C). lia.
  - specialize (Out c U K). unfold back1. destruct (g c 1%nat) as [[r l]| | |]; cbn in Out; try contradiction.
    destruct r as [|[?|?|]|?]; try reflexivity; lia.
Qed.
Lemma back1_use : forall g h c a l, back1 g h c = true -> g c 1%nat = Ok (1, l) -> lfind l 0%nat = Some a -> h [a] 1%nat = Ok (1, Some c).
Proof.
  intros g h c a l H E A. unfold back1 in H. rewrite E, A in H. destruct (h [a] 1%nat) as [[r w]| | |]; try discriminate.
  destruct r as [|[?|?|]|?]; try discriminate. destruct w as [d|]; [|discriminate]. apply Z.eqb_eq in H. now subst.
Qed.

(** ** One character *)
Definition sleaf (f : funcs) (rel : Z -> Z * Z -> Prop) (c : Z) (i : Z * Z) (bs : list Z) (o' : Z) : Prop :=
  exists i', (forall t, bytes (bs ++ t) -> Z.of_nat (length (bs ++ t)) <= LIM -> dec f (bs ++ t) i = Some (DChar (length bs) c i')) /\ rel o' i'.
Definition sgoal (f : funcs) (rel : Z -> Z * Z -> Prop) (c o : Z) (i : Z * Z) : Prop :=
  holds (f_wc f c 16 o) (fun '(k, l, o') => k < 0 \/ sleaf f rel c i (log_bytes l 0 (Z.to_nat k)) o' /\ log_bytes l 0 (Z.to_nat k) <> []).
Lemma dec_by : forall f s i k c j, holds (f_mb f s (length s) (fst i) (snd i)) (fun '(r, w, ist, ibo) => (r, w, ist, ibo) = (Z.of_nat k, Some c, fst j, snd j)) -> dec f s i = Some (DChar k c j).
Proof.
  intros f s i k c (a, b) H. unfold dec. destruct (f_mb f s (length s) (fst i) (snd i)) as [[[[r w] x] y]| | |]; cbn in H; try contradiction.
  injection H as -> -> -> ->. unfold dview. destruct (Z.ltb_spec (Z.of_nat k) 0); [lia|]. now rewrite Nat2Z.id.
Qed.
Lemma sgoal_char : forall f rel c o i bs o' t u skip, sgoal f rel c o i -> emit f c o = Some (bs, o') -> bytes (bs ++ t) -> Z.of_nat (length (bs ++ t)) <= LIM ->
  exists i', rel o' i' /\ takes f u skip (bs ++ t) i [c] t i'.
Proof.
  intros f rel c o i bs o' t u skip G E B L. unfold sgoal in G. unfold emit in E. destruct (f_wc f c 16%nat o) as [[[k l] o1]| | |]; try discriminate.
  cbn in G. destruct (Z.ltb_spec k 0); [discriminate|]. assert (E1 : log_bytes l 0 (Z.to_nat k) = bs) by congruence. assert (E2 : o1 = o') by congruence. subst o1.
  rewrite E1 in G. destruct G as [G|((i' & D & R) & N)]; [lia|]. exists i'. split; [exact R|]. eapply takes_char; [|exact (D t B L)|].
  - destruct bs; [contradiction|discriminate].
  - rewrite skipn_app, skipn_all, Nat.sub_diag. apply takes_none.
Qed.

(** ** Stepping *)
Ltac back_2 L RT wc :=
  let E := fresh "E" in let R := fresh "R" in let a := fresh "a" in let b := fresh "b" in
  destruct (leaf_ok_sound _ _ _ (L wc ltac:(assumption))) as [E|(a & b & R & E)];
  [|apply inr2 in R; destruct R; pose proof (back2_use _ _ _ _ _ _ (RT wc ltac:(assumption)) E eq_refl eq_refl)];
  apply (holds_of _ _ _ _ _ E); cbv beta iota.
Ltac back_1 L RT wc :=
  let E := fresh "E" in let R := fresh "R" in let a := fresh "a" in
  destruct (leaf_ok_sound _ _ _ (L wc ltac:(assumption))) as [E|(a & R & E)];
  [|apply inr1 in R; pose proof (back1_use _ _ _ _ _ (RT wc ltac:(assumption)) E eq_refl)];
  apply (holds_of _ _ _ _ _ E); cbv beta iota.
Ltac s_bytes B := repeat match type of B with bytes (_ :: _) => let R := fresh "R" in apply byte_in in B; destruct B as [R B] end.
(** The decoder to unfold, and how to show the relation; set by each file. *)
Ltac s_open := idtac.
Ltac s_rel := idtac.
Lemma s_same : forall (k k' w w' i b : Z), k = k' -> w = w' -> (k, Some w, i, b) = (k', Some w', i, b).
Proof. intros. now subst. Qed.
Ltac s_eq := first [reflexivity | cbv [oset]; apply s_same; [reflexivity|lia]].
Ltac s_dec := apply dec_by; cbn [app length fst snd]; s_open; sx; s_eq.
Ltac s_end :=
  cbv beta iota;
  lazymatch goal with
  | |- ?k < 0 \/ sleaf ?f ?rel ?c ?i (log_bytes ?l _ _) ?o /\ _ =>
    let k' := eval vm_compute in k in
    lazymatch k' with
    | Zneg _ => left; reflexivity
    | _ => right;
      let bs := eval cbv [log_bytes Z.to_nat Pos.to_nat Pos.iter_op Nat.add lfind wr Nat.eqb lapp lshift map app fst snd] in (log_bytes l 0 (Z.to_nat k')) in
      change (sleaf f rel c i bs o /\ bs <> []); split; [|discriminate];
      eexists (_, _); split; [let t := fresh "t" in let B := fresh "B" in let L := fresh "L" in intros t B L; cbn [app] in B; s_bytes B; s_dec|s_rel]
    end
  end.

(** ** Whole texts *)
(** The characters of a text in UTF-8 that an encoding with escape sequences keeps: no tags, and none of those that steer it. *)
Definition plain (steer : list Z) (c : Z) : Prop := scalar c = true /\ tag c = false /\ ~ In c steer.
(** Writer and reader in step, for each pair of states in a list. *)
Definition paired (pairs : list (Z * Z)) (o : Z) (i : Z * Z) : Prop := In (o, fst i) pairs /\ snd i = 0.
(** At the end of the text, the reader goes over the closing bytes, and holds back nothing. *)
Definition ends (f : funcs) (p : Z * Z) : bool :=
  match closing f (fst p) with
  | [] => match held f (snd p) with [] => true | _ => false end
  | c :: s =>
    match dec f (c :: s) (snd p, 0) with
    | Some (DFew (S k) i) => if (k =? length s)%nat then match held f (fst i) with [] => true | _ => false end else false
    | _ => false
    end
  end.
Lemma rel_step_P : forall f (P : Z -> Prop) (rel : Z -> Z * Z -> Prop), rel 0 (0, 0) -> (forall c, P c -> tag c = false) ->
  (forall c o i, P c -> rel o i -> sgoal f rel c o i) ->
  (forall o i, rel o i -> ends f (o, fst i) = true /\ snd i = 0) -> carries f P.
Proof.
  intros f P0 rel Z0 NT St En. apply (step_carries f _ rel). constructor.
  - exact Z0.
  - intros c o i P1 _ T'. specialize (NT c P1). congruence.
  - intros c o bs o' i t u skip P R E B L. eapply sgoal_char; eauto.
  - intros o (ist, ibo) u skip R. destruct (En _ _ R) as (En1 & Z1). cbn [fst snd] in *. subst ibo. unfold ends in En1. cbn [fst snd] in En1.
    destruct (closing f o) as [|c s].
    + exists (ist, 0). split; [constructor|]. cbn [fst]. now destruct (held f ist).
    + destruct (dec f (c :: s) (ist, 0)) as [[|[|k] i|]|] eqn:D; try discriminate. destruct (Nat.eqb_spec k (length s)) as [->|]; [|discriminate].
      exists i. split; [|now destruct (held f (fst i))]. eapply reads_shift; [discriminate|exact D|]. cbn [skipn]. rewrite skipn_all. constructor.
Qed.
Lemma rel_step : forall f steer (rel : Z -> Z * Z -> Prop), rel 0 (0, 0) -> (forall c o i, plain steer c -> rel o i -> sgoal f rel c o i) ->
  (forall o i, rel o i -> ends f (o, fst i) = true /\ snd i = 0) -> carries f (plain steer).
Proof. intros f steer rel A B C. apply (rel_step_P f _ rel); auto. now intros c (_ & T & _). Qed.
Lemma paired_step : forall f steer pairs, In (0, 0) pairs -> (forall c o i, plain steer c -> paired pairs o i -> sgoal f (paired pairs) c o i) ->
  forallb (ends f) pairs = true -> carries f (plain steer).
Proof.
  intros f steer pairs Z0 St En. apply (rel_step f steer (paired pairs)); [split; [exact Z0|reflexivity]|exact St|].
  intros o i (R & Z1). rewrite forallb_forall in En. split; [exact (En _ R)|exact Z1].
Qed.
Lemma scalar_ucs4 : forall c, scalar c = true -> ucs4 c.
Proof. intros c S. unfold scalar, ucs4 in *. lia. Qed.
