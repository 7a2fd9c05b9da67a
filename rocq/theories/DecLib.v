(** Decoder contracts by stepping through the code.

    Decoders without state are run on an input whose first bytes are named.  Decoders with shift sequences are
    loops; one round of the loop either finishes or skips a shift sequence, and the contract follows from
    what single rounds do. *)
From Coq Require Import ZArith List Bool Lia.
From Verif Require Import Base Loop Contract LoopLib Reflect Sx Rng EncLib Encodings.
Import ListNotations.
Open Scope Z_scope.

Lemma view_few : forall count w a b, 0 <= count -> dview (Ok ((-2) - 2 * count, w, a, b)) = Some (DFew (Z.to_nat count) (a, b)).
Proof.
  intros count w a b H. unfold dview. rewrite (proj2 (Z.ltb_lt _ _)) by lia.
  replace (-1 - (-2 - 2 * count)) with (2 * count + 1) by lia. rewrite Z.even_add_mul_2 with (n := 1) (m := count) || rewrite Z.add_comm, Z.even_add_mul_2. cbn [Z.even].
  replace (-2 - (-2 - 2 * count)) with (count * 2) by lia. rewrite Z.div_mul by lia. reflexivity.
Qed.
Lemma view_ill : forall count w a b, 0 <= count -> dview (Ok ((-1) - 2 * count, w, a, b)) = Some (DIll (Z.to_nat count) (a, b)).
Proof.
  intros count w a b H. unfold dview. rewrite (proj2 (Z.ltb_lt _ _)) by lia.
  replace (-1 - (-1 - 2 * count)) with (count * 2) by lia. rewrite Z.even_mul, orb_true_r, Z.div_mul by lia. reflexivity.
Qed.
Lemma view_char : forall c wc a b, 0 <= c -> dview (Ok (c, Some wc, a, b)) = Some (DChar (Z.to_nat c) wc (a, b)).
Proof. intros c wc a b H. unfold dview. rewrite (proj2 (Z.ltb_ge _ _)) by lia. reflexivity. Qed.

Lemma holds_view : forall m d, holds m (fun x => dview (Ok x) = Some d) -> dview m = Some d.
Proof. intros [x| | |] d H; [exact H|easy..]. Qed.
Lemma view_holds : forall m d, dview m = Some d -> holds m (fun x => dview (Ok x) = Some d).
Proof. intros [x| | |] d H; [exact H|easy..]. Qed.

(** ** Decoders without state *)
(** What such a decoder says about s; None: more bytes are needed. *)
Inductive d0res : Type := D0Char (k : nat) (wc : Z) | D0Few | D0Ill.
Definition d0ret (d : d0res) : Z := match d with D0Char k _ => Z.of_nat k | D0Few => -2 | D0Ill => -1 end.
Definition d0ok (unit : nat) (s : list Z) (d : d0res) : Prop :=
  match d with D0Char k wc => (1 <= k <= length s)%nat /\ ucs4 wc | D0Few => True | D0Ill => (unit <= length s)%nat end.
Definition d0at (f : list Z -> nat -> res (Z * option Z)) (s : list Z) (d : d0res) : Prop :=
  holds (f s (length s)) (fun '(c, w) => c = d0ret d /\ match d with D0Char _ wc => w = Some wc | _ => True end).
Definition d0goal (f : list Z -> nat -> res (Z * option Z)) (unit : nat) (s : list Z) : Prop :=
  exists d, d0ok unit s d /\ d0at f s d /\ (d <> D0Few -> forall t, d0at f (s ++ t) d).
Definition d0leaf (f : list Z -> nat -> res (Z * option Z)) (unit : nat) (s : list Z) (c : Z) (w : option Z) : Prop := d0goal f unit s.
Lemma d0_probe : forall f unit s, holds (f s (length s)) (fun '(c, w) => d0leaf f unit s c w) -> d0goal f unit s.
Proof. intros f unit s H. destruct (f s (length s)) as [[c w]| | |]; simpl in H; [exact H|easy..]. Qed.

Definition d0dres (d : d0res) : dres := match d with D0Char k wc => DChar k wc (0, 0) | D0Few => DFew 0 (0, 0) | D0Ill => DIll 0 (0, 0) end.
Lemma d0at_dec : forall e f s d, f_mb e = mb0 f -> d0at f s d -> dec e s (0, 0) = Some (d0dres d).
Proof.
  intros e f s d E H. unfold dec, d0at, holds in *. rewrite E. unfold mb0. cbn [fst snd].
  destruct (f s (length s)) as [[c w]| | |]; [|contradiction..]. cbn [bind]. destruct H as [-> H].
  destruct d as [k wc| |]; cbn [d0ret d0dres].
  - subst w. rewrite view_char, Nat2Z.id by lia. reflexivity.
  - exact (view_few 0 w 0 0 ltac:(lia)).
  - exact (view_ill 0 w 0 0 ltac:(lia)).
Qed.
Lemma inv0_eq : forall i, inv0 i -> i = (0, 0).
Proof.
  intros [a b] [H1 H2]. cbn [fst snd] in *. apply mem_In in H1. destruct H1 as [<-|[]]. now subst.
Qed.
Lemma inv0_0 : inv0 (0, 0).
Proof. split; reflexivity. Qed.

Lemma dec0_intro : forall e f unit, f_mb e = mb0 f -> f_flush e = None ->
  (forall s, s <> [] -> bytes s -> d0goal f unit s) -> dec_ok e unit inv0 pend0 ucs4 /\ dec_stable e inv0.
Proof.
  intros e f unit E F H. split; constructor.
  - apply inv0_0.
  - intros i I. apply inv0_eq in I. subst. apply inv0_0.
  - reflexivity.
  - intros s i I S B _. apply inv0_eq in I. subst. destruct (H s S B) as (d & O & A & _).
    exists (d0dres d). split; [now apply d0at_dec with f|]. destruct d as [k wc| |]; cbn in *; repeat split; intros; try reflexivity; try lia; try (now apply O); try apply O.
  - intros i _. rewrite F. exact I.
  - intros s t i k wc i' I B _ _ S D. apply inv0_eq in I. subst. destruct (H s S B) as (d & O & A & T).
    rewrite (d0at_dec e f s d E A) in D. destruct d as [k' wc'| |]; try discriminate D. rewrite (d0at_dec e f _ _ E (T ltac:(discriminate) t)). exact D.
  - intros s t i k i' I B _ _ S D. apply inv0_eq in I. subst. destruct (H s S B) as (d & O & A & T).
    rewrite (d0at_dec e f s d E A) in D. destruct d as [k' wc'| |]; try discriminate D. rewrite (d0at_dec e f _ _ E (T ltac:(discriminate) t)). exact D.
  - intros s t i k i' I B _ _ S D. apply inv0_eq in I. subst. destruct (H s S B) as (d & O & A & T).
    rewrite (d0at_dec e f s d E A) in D. destruct d; discriminate D.
  - intros s i k wc i' I B _ S D. apply inv0_eq in I. subst. destruct (H s S B) as (d & O & A & T).
    pose proof D as D'. rewrite (d0at_dec e f s d E A) in D. destruct d; try discriminate D. injection D as -> -> <-. exact D'.
  - intros s i k i' I B _ S D. apply inv0_eq in I. subst. destruct (H s S B) as (d & O & A & T).
    pose proof D as D'. rewrite (d0at_dec e f s d E A) in D. destruct d; try discriminate D. injection D as <- <-. exact D'.
Qed.

(** Naming the first bytes. *)
Lemma byte_in : forall b s, bytes (b :: s) -> 0 <= b < 256 /\ bytes s.
Proof. intros b s H. inversion H; subst. split; assumption. Qed.
Ltac name_byte s B :=
  let b := fresh "b" in let tl := fresh "tl" in let R := fresh "R" in
  destruct s as [|b tl]; [|apply byte_in in B; destruct B as [R B]].

Ltac ifs_lia := repeat match goal with |- context [if ?c then _ else _] => let H := fresh in destruct c eqn:H end; lia.
Ltac sx_ucs4 := unfold ucs4; first [lia | solve [ifs_lia] | lazymatch goal with |- 0 <= ?e < _ => change (rng 32 e); rng_ end].
Ltac d0_leaf :=
  lazymatch goal with
  | |- d0leaf ?f ?unit ?s ?c ?w =>
    let c' := eval vm_compute in c in
    let w := eval cbv [oset] in w in
    unfold d0leaf;
    lazymatch c' with
    | -2 => exists D0Few; split; [exact I|split; [unfold d0at; cbn [length]; sx; (split; [reflexivity|exact I])|let X := fresh in intro X; exfalso; now apply X]]
    | -1 => exists D0Ill; split; [cbn [d0ok length]; lia|split; [unfold d0at; cbn [length]; sx; (split; [reflexivity|exact I])|
              let t := fresh "t" in intros _ t; unfold d0at; cbn [app length]; sx; (split; [reflexivity|exact I])]]
    | _ => let k := eval vm_compute in (Z.to_nat c') in
           lazymatch w with Some ?wc => exists (D0Char k wc) end; split; [cbn [d0ok length]; split; [lia|sx_ucs4]|split; [unfold d0at; cbn [length]; sx; (split; reflexivity)|
              let t := fresh "t" in intros _ t; unfold d0at; cbn [app length]; sx; (split; reflexivity)]]
    end
  end.

Ltac d0_go := cbn [length]; apply d0_probe; cbn [length]; sx; d0_leaf.
Ltac d0_open s B :=
  intros s; let S := fresh in intros S B; name_byte s B; [exfalso; now apply S|clear S].

(** ** Decoders with shift sequences *)
Inductive hout : Type := HFin (d : dres) | HSkip (k : nat) (i' : Z * Z).

Section LOOP.
Variables (e : funcs) (unit : nat) (inv : Z * Z -> Prop) (pend : Z * Z -> bool) (P : Z -> Prop).
(** The loop of the decoder: fuel, bytes already skipped, remaining input, state. *)
Variable L : nat -> Z -> list Z -> Z * Z -> res (Z * option Z * Z * Z).

(** The loop at remaining input s in state i behaves as o says. *)
Definition hat (o : hout) (s : list Z) (i : Z * Z) : Prop :=
  forall fuel count, (8 + 4 * length s <= fuel)%nat -> 0 <= count -> count + Z.of_nat (length s) <= LIM ->
  match o with
  | HFin d => dview (L fuel count s i) = Some (dshift (Z.to_nat count) d)
  | HSkip k i' =>
    match skipn k s with
    | [] => dview (L fuel count s i) = Some (DFew (Z.to_nat count + k) i')
    | _ => exists fuel', (fuel <= fuel' + 4 * k)%nat /\ forall Q, holds (L fuel' (count + Z.of_nat k) (skipn k s) i') Q -> holds (L fuel count s i) Q
    end
  end.
Definition hok (s : list Z) (i : Z * Z) (o : hout) : Prop :=
  match o with
  | HFin d => dres_ok unit inv pend P s i d /\
      match d with DFew k i' => k = 0%nat /\ i' = i | DIll k i' => k = 0%nat /\ i' = i | DChar k wc i' => snd i' = snd i end
  | HSkip k i' => (1 <= k <= length s)%nat /\ inv i' /\ pend i = false /\ pend i' = false
  end.
Definition hgoal (s : list Z) (i : Z * Z) : Prop :=
  exists o, hok s i o /\ hat o s i /\
    match o with
    | HFin (DFew _ _) => True
    | HFin _ => forall t, bytes t -> hat o (s ++ t) i
    | HSkip k i' => (forall t, bytes t -> hat o (s ++ t) i) /\ (forall b, inv (fst i, b) -> hat o s (fst i, b))
    end.

Lemma hgoal_few : forall s i, hok s i (HFin (DFew 0 i)) -> hat (HFin (DFew 0 i)) s i -> hgoal s i.
Proof. intros s i O H. exists (HFin (DFew 0 i)). auto. Qed.
Lemma hgoal_fin : forall p tl i d, match d with DFew _ _ => False | _ => True end -> hok (p ++ tl) i (HFin d) ->
  (forall u, hat (HFin d) (p ++ u) i) -> hgoal (p ++ tl) i.
Proof.
  intros p tl i d N O H. exists (HFin d). split; [exact O|]. split; [apply H|].
  destruct d; try contradiction; intros t Bt; rewrite <- app_assoc; apply H.
Qed.
Lemma hgoal_skip : forall p tl i k i', hok (p ++ tl) i (HSkip k i') -> inv i ->
  (forall u b, inv (fst i, b) -> hat (HSkip k i') (p ++ u) (fst i, b)) -> hgoal (p ++ tl) i.
Proof.
  intros p tl i k i' O I H. exists (HSkip k i'). assert (H' : forall u, hat (HSkip k i') (p ++ u) i).
  { intro u. destruct i as [a b]. apply (H u b I). }
  split; [exact O|]. split; [apply H'|]. split; [intros t _; rewrite <- app_assoc; apply H'|intro b; apply H].
Qed.
(** The outcome of a probe with fuel 16. *)
Definition hleaf (s : list Z) (i : Z * Z) (x : Z * option Z * Z * Z) : Prop := hgoal s i.
Lemma h_probe : forall s i, hold false (L 16 0 s i) (hleaf s i) -> hgoal s i.
Proof. intros s i [x H]. exact H. Qed.
Lemma h_pending : forall s i (m : res (Z * option Z * Z * Z)), hgoal s i -> hold false m (hleaf s i).
Proof. intros s i m H. exists (0, None, 0, 0). exact H. Qed.

Hypothesis He : forall s i, f_mb e s (length s) (fst i) (snd i) = L (8 + 4 * length s) 0 s i.
Hypothesis Hinv : forall i j, inv i -> inv j -> inv (fst i, snd j).
Hypothesis Hpend : forall i b, pend (fst i, b) = pend i.
Hypothesis Hgoal : forall s i, s <> [] -> bytes s -> Z.of_nat (length s) <= LIM -> inv i -> hgoal s i.

Definition runs (s : list Z) (i : Z * Z) (d : dres) : Prop :=
  forall fuel count, (8 + 4 * length s <= fuel)%nat -> 0 <= count -> count + Z.of_nat (length s) <= LIM ->
  dview (L fuel count s i) = Some (dshift (Z.to_nat count) d).

Lemma dshift_dshift : forall a b d, dshift a (dshift b d) = dshift (a + b) d.
Proof. intros a b [k w i|k i|k i]; cbn [dshift]; f_equal; lia. Qed.

Lemma runs_fin : forall s i d, hat (HFin d) s i -> runs s i d.
Proof. intros s i d H. exact H. Qed.
Lemma runs_skip_nil : forall s i k i', hat (HSkip k i') s i -> skipn k s = [] -> runs s i (DFew k i').
Proof. intros s i k i' H N fuel count F C B. specialize (H fuel count F C B). cbn iota in H. rewrite N in H. exact H. Qed.
Lemma runs_skip : forall s i k i' d, hat (HSkip k i') s i -> (k <= length s)%nat -> skipn k s <> [] -> runs (skipn k s) i' d -> runs s i (dshift k d).
Proof.
  intros s i k i' d H K N R fuel count F C B. specialize (H fuel count F C B). cbn iota in H.
  destruct (skipn k s) as [|x y] eqn:E; [contradiction|]. destruct H as (fuel' & G & T). rewrite dshift_dshift. apply holds_view, T, view_holds.
  assert (Y : length (x :: y) = (length s - k)%nat) by (rewrite <- E; apply skipn_length).
  rewrite R; [f_equal; f_equal; lia|lia|lia|lia].
Qed.

Lemma bytes_skipn : forall k s, bytes s -> bytes (skipn k s).
Proof. intros k s H. unfold bytes in *. rewrite Forall_forall in *. intros x Hx. apply H. rewrite <- (firstn_skipn k s). apply in_or_app. now right. Qed.

Lemma dec_runs : forall s i d, Z.of_nat (length s) <= LIM -> runs s i d -> dec e s i = Some d.
Proof. intros s i d B R. unfold dec. rewrite He, R by lia. destruct d; reflexivity. Qed.

Lemma dres_ok_shift : forall s i k i' d, inv i -> inv i' -> pend i = false -> pend i' = false -> (1 <= k <= length s)%nat ->
  dres_ok unit inv pend P (skipn k s) i' d -> dres_ok unit inv pend P s i (dshift k d).
Proof.
  intros s i k i' d I I' Pi Pi' K H. destruct d as [c wc j|c j|c j]; cbn [dshift dres_ok] in *; rewrite skipn_length in H.
  - destruct H as (A & B & C & D & E & F). repeat split; try lia; try assumption; [now apply Hinv|apply Hpend].
  - destruct H as (A & B & C). repeat split; [lia|exact B|lia].
  - destruct H as (A & B). repeat split; [lia|exact B].
Qed.

(** Everything about one input at once, by induction on its length. *)
Lemma runs_all : forall m s i, (length s <= m)%nat -> s <> [] -> bytes s -> Z.of_nat (length s) <= LIM -> inv i ->
  exists d, runs s i d /\ dres_ok unit inv pend P s i d /\
  match d with
  | DChar k wc i' => (forall t, bytes t -> runs (s ++ t) i d) /\ runs s (fst i, snd i') d
  | DIll k i' => (forall t, bytes t -> runs (s ++ t) i d) /\ runs (skipn k s) i' (DIll 0 i')
  | DFew k i' => (k = 0%nat \/ (forall t, bytes t -> skipn k s ++ t <> [] -> forall d', runs (skipn k s ++ t) i' d' -> runs (s ++ t) i (dshift k d')))
                 /\ (k = 0%nat -> i' = i)
  end.
Proof.
  induction m as [|m IH]; intros s i Hm S B Lm I; [destruct s; [contradiction|cbn in Hm; lia]|].
  destruct (Hgoal s i S B Lm I) as (o & O & A & T). destruct o as [d|k i'].
  - exists d. destruct O as [O O2]. split; [now apply runs_fin|]. split; [exact O|].
    destruct d as [k wc i'|k i'|k i'].
    + split; [exact T|]. cbn [snd fst] in O2. rewrite O2. destruct i; exact A.
    + destruct O2 as [-> ->]. split; auto.
    + destruct O2 as [-> ->]. split; [exact T|]. exact A.
  - destruct O as (K & I' & Pi & Pi'). destruct T as [T1 T2]. destruct (skipn k s) as [|x y] eqn:E.
    + assert (K2 : (length s <= k)%nat). { assert (length (skipn k s) = 0%nat) by (rewrite E; reflexivity). rewrite skipn_length in H. lia. }
      exists (DFew k i'). split; [now apply runs_skip_nil|]. split; [split; [lia|split; [exact I'|lia]]|].
      split; [|lia]. right. rewrite E. intros t Bt N d' R. cbn [app] in *.
      assert (Y : skipn k (s ++ t) = t) by (rewrite skipn_app, E; replace (k - length s)%nat with 0%nat by lia; reflexivity).
      apply runs_skip with i'; [now apply T1|rewrite app_length; lia|now rewrite Y|now rewrite Y].
    + assert (Y : (length (skipn k s) = length s - k)%nat) by apply skipn_length.
      assert (N : skipn k s <> []) by (rewrite E; discriminate).
      destruct (IH (skipn k s) i') as (d & R & D & Q); [lia|exact N|now apply bytes_skipn|lia|exact I'|].
      exists (dshift k d). split; [now apply runs_skip with i'|]. split; [now apply dres_ok_shift with i'|].
      assert (App : forall t, skipn k (s ++ t) = skipn k s ++ t).
      { intro t. rewrite skipn_app. replace (k - length s)%nat with 0%nat by lia. reflexivity. }
      assert (Ext : forall t d', bytes t -> runs (skipn k s ++ t) i' d' -> runs (s ++ t) i (dshift k d')).
      { intros t d' Bt R'. apply runs_skip with i'; [now apply T1|rewrite app_length; lia|rewrite App, E; discriminate|now rewrite App]. }
      destruct d as [c wc j|c j|c j]; cbn [dshift] in *.
      * destruct Q as [Q1 Q2]. split; [intros t Bt; exact (Ext t _ Bt (Q1 t Bt))|].
        (* the skipped sequence leads to i' whatever the byte order was *)
        assert (Ij : inv (fst i, snd j)) by (apply Hinv; [exact I|apply D]).
        apply (runs_skip s (fst i, snd j) k i' (DChar c wc j)); [now apply T2|lia|exact N|exact R].
      * destruct Q as [Q1 Q2]. split; [right|lia]. intros t Bt N' d' R'.
        rewrite <- skipn_skipn in R', N'. replace (dshift (k + c) d') with (dshift k (dshift c d')) by (rewrite dshift_dshift; reflexivity). apply Ext; [exact Bt|].
        destruct Q1 as [->|Q1].
        -- specialize (Q2 eq_refl). subst j. cbn [skipn] in R'. destruct d'; exact R'.
        -- apply Q1; assumption.
      * destruct Q as [Q1 Q2]. split; [intros t Bt; exact (Ext t _ Bt (Q1 t Bt))|].
        rewrite <- skipn_skipn. exact Q2.
Qed.

Lemma loop_dec : inv (0, 0) -> (forall i, inv i -> inv (0, snd i)) -> (forall b, pend (0, b) = false) -> 
  (forall i, inv i ->
    match f_flush e with
    | None => True
    | Some fl => exists b w ist', fl (fst i) = Ok (b, w, ist') /\ inv (ist', snd i) /\
        (b = 0 -> ist' = fst i) /\
        (b <> 0 -> exists wc, w = Some wc /\ P wc /\ exists w', fl ist' = Ok (0, w', ist'))
    end) -> dec_ok e unit inv pend P /\ dec_stable e inv.
Proof.
  intros I0 IR P0 FL. split; constructor; auto.
  - intros s i I S B Lm. destruct (runs_all (length s) s i ltac:(lia) S B Lm I) as (d & R & D & _).
    exists d. split; [now apply dec_runs|exact D].
  - intros s t i k wc i' I B Bt Lm S D. assert (Ls : Z.of_nat (length s) <= LIM) by (rewrite app_length in Lm; lia).
    destruct (runs_all (length s) s i ltac:(lia) S B Ls I) as (d & R & O & Q).
    rewrite (dec_runs s i d Ls R) in D. injection D as ->. apply dec_runs; [exact Lm|]. now apply Q.
  - intros s t i k i' I B Bt Lm S D. assert (Ls : Z.of_nat (length s) <= LIM) by (rewrite app_length in Lm; lia).
    destruct (runs_all (length s) s i ltac:(lia) S B Ls I) as (d & R & O & Q).
    rewrite (dec_runs s i d Ls R) in D. injection D as ->. apply dec_runs; [exact Lm|]. now apply Q.
  - intros s t i k i' I B Bt Lm S D N. assert (Ls : Z.of_nat (length s) <= LIM) by (rewrite app_length in Lm; lia).
    destruct (runs_all (length s) s i ltac:(lia) S B Ls I) as (d & R & O & Q).
    rewrite (dec_runs s i d Ls R) in D. injection D as ->. right. destruct Q as [[Q|Q] _]; [discriminate|].
    assert (B2 : bytes (skipn (Datatypes.S k) s ++ t)) by (apply Forall_app; split; [now apply bytes_skipn|exact Bt]).
    assert (L2 : Z.of_nat (length (skipn (Datatypes.S k) s ++ t)) <= LIM) by (rewrite app_length, skipn_length in *; lia).
    destruct (runs_all _ (skipn (Datatypes.S k) s ++ t) i' (le_n _) N B2 L2) as (d & R2 & _); [apply O|].
    exists d. split; [now apply dec_runs|]. apply dec_runs; [exact Lm|]. apply Q; assumption.
  - intros s i k wc i' I B Ls S D.
    destruct (runs_all (length s) s i ltac:(lia) S B Ls I) as (d & R & O & Q).
    rewrite (dec_runs s i d Ls R) in D. injection D as ->. apply dec_runs; [exact Ls|]. apply Q.
  - intros s i k i' I B Ls S D.
    destruct (runs_all (length s) s i ltac:(lia) S B Ls I) as (d & R & O & Q).
    rewrite (dec_runs s i d Ls R) in D. injection D as ->. apply dec_runs; [rewrite skipn_length; lia|]. apply Q.
Qed.
End LOOP.

Lemma fuel_8 : forall fuel k, (8 + k <= fuel)%nat -> exists m, fuel = S (S (S (S (S (S (S (S m))))))) /\ (k <= m)%nat.
Proof. intros fuel k H. exists (fuel - 8)%nat. lia. Qed.

(** Set per encoding: start of the loop body, start of a further round, unfolding of L in a hypothesis, cases of an
    invariant, proof of an invariant, normal form of hypotheses before a skip, state of a pending round. *)
Ltac h_open := idtac.
Ltac h_again := idtac.
Ltac h_unL H := idtac.
Ltac h_cases H := idtac.
Ltac h_inv := idtac.
Ltac h_norm := idtac.
Ltac h_count m := fail.
Ltac h_state m := fail.
Ltac h_nf j := let j' := eval vm_compute in j in constr:(j').

(** s as named bytes and a tail. *)
Ltac pre_of s := lazymatch s with ?b :: ?r => let p := pre_of r in constr:(b :: p) | _ => constr:(@nil Z) end.
Ltac tail_of s := lazymatch s with _ :: ?r => tail_of r | _ => s end.
Ltac pre_k k s := lazymatch k with S ?k' => lazymatch s with ?b :: ?r => let p := pre_k k' r in constr:(b :: p) end | O => constr:(@nil Z) end.
Ltac tail_k k s := lazymatch k with S ?k' => lazymatch s with _ :: ?r => tail_k k' r end | O => s end.
Ltac h_hat_intro :=
  let fuel := fresh "fuel" in let count := fresh "count" in let F := fresh "F" in let C := fresh "Hc" in let B := fresh "Hl" in
  intros fuel count F C B; cbn [app length] in F, B; cbn [app];
  let m := fresh "m" in let F' := fresh "F" in destruct (fuel_8 _ _ F) as (m & -> & F'); clear F; unfold LIM in B.
Ltac h_view :=
  cbv beta iota; cbv [oset];
  first [ rewrite view_few by lia | rewrite view_ill by lia | rewrite view_char by lia ];
  cbn [dshift]; first [f_equal; f_equal; lia | f_equal; f_equal; [lia|reflexivity]].
Ltac h_fin := h_hat_intro; apply holds_view; h_open; sx; h_view.
Ltac h_skip_loop HQ :=
  h_unL HQ; cbn [fst snd length skipn app] in HQ;
  lazymatch goal with |- holds ?m ?Q => refine (eq_rect _ (fun x => holds x Q) HQ _ _) end;
  f_equal; first [reflexivity | cbn [length]; lia].
Ltac h_skip :=
  h_hat_intro; cbn [skipn];
  lazymatch goal with
  | |- match ?u with [] => _ | _ => _ end =>
     try (is_var u; destruct u as [|? ?]);
     lazymatch goal with
     | |- dview _ = _ => apply holds_view; h_open; sx; try (h_again; sx); h_view
     | _ => eexists; split; [|let Q := fresh "Q" in let HQ := fresh "HQ" in intros Q HQ; h_open; sx; h_skip_loop HQ]; lia
     end
  end.
Ltac h_hok := cbn [hok dres_ok app length fst snd];
  repeat match goal with |- _ /\ _ => split end; intros;
  first [reflexivity | lia | h_inv | lazymatch goal with |- ucs4 _ => sx_ucs4 end | exfalso; lia].

(** One leaf of a probe. *)
Ltac h_skips unit inv pend P L s i k j :=
  let p := pre_k k s in let tl := tail_k k s in
  change (hgoal unit inv pend P L (p ++ tl) i);
  apply (hgoal_skip unit inv pend P L p tl i k j); [h_hok|h_inv|
    let u := fresh "u" in let b := fresh "b" in let H := fresh "H" in intros u b H; cbn [fst] in H |- *; h_cases H; h_skip].
Ltac h_leaf :=
  lazymatch goal with
  | |- hold false _ _ =>
    h_norm;
    lazymatch goal with |- hold false ?m (hleaf ?unit ?inv ?pend ?P ?L ?s ?i) =>
      let c := h_count m in let k := eval vm_compute in (Z.to_nat c) in let j0 := h_state m in let j := h_nf j0 in
      apply h_pending; h_skips unit inv pend P L s i k j end
  | |- hleaf ?unit ?inv ?pend ?P ?L ?s ?i (?c, ?w, ?a, ?b) =>
    let c' := eval vm_compute in c in
    let p := pre_of s in let tl := tail_of s in
    lazymatch c' with
    | -2 => unfold hleaf; apply hgoal_few; [h_hok|h_fin]
    | -1 => unfold hleaf; change (hgoal unit inv pend P L (p ++ tl) i); apply (hgoal_fin unit inv pend P L p tl i (DIll 0 i)); [exact I|h_hok|let u := fresh "u" in intro u; h_fin]
    | Zneg _ => let k := eval vm_compute in (Z.to_nat ((-2 - c') / 2)) in
                h_norm; lazymatch goal with |- hleaf ?unit ?inv ?pend ?P ?L ?s ?i (_, _, ?a, ?b) => let j := h_nf constr:((a, b)) in unfold hleaf; h_skips unit inv pend P L s i k j end
    | _ => let k := eval vm_compute in (Z.to_nat c') in
           let w' := eval cbv [oset] in w in
           lazymatch w' with Some ?wc =>
             unfold hleaf; change (hgoal unit inv pend P L (p ++ tl) i); apply (hgoal_fin unit inv pend P L p tl i (DChar k wc (a, b))); [exact I|h_hok|let u := fresh "u" in intro u; h_fin]
           end
    end
  end.
Ltac h_go := apply h_probe; cbn [length]; h_open; sx; h_leaf.
