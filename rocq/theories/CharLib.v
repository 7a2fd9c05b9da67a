(** Checking a converter against a charmap. *)
From Coq Require Import ZArith List Bool Lia FMapPositive.
From Verif Require Import Base Loop Contract LoopLib Spec Sx Encodings Charmap.
Import ListNotations.
Open Scope Z_scope.

(** ** What is to be shown *)
Record decodes (f : funcs) (D : Z -> list Z -> Prop) : Prop := {
  de_char : forall c bs t i, D c bs -> bytes t -> Z.of_nat (length (bs ++ t)) <= LIM -> dec f (bs ++ t) i = Some (DChar (length bs) c i);
  de_only : forall s i k c i', bytes s -> s <> [] -> Z.of_nat (length s) <= LIM ->
    dec f s i = Some (DChar k c i') -> D c (firstn k s) /\ i' = i;
  de_st : forall s i d, bytes s -> s <> [] -> Z.of_nat (length s) <= LIM -> dec f s i = Some d ->
    match d with DChar k _ _ => (1 <= k)%nat | DFew k i' | DIll k i' => k = 0%nat /\ i' = i end;
  de_pos : forall c bs, D c bs -> bs <> [] /\ bytes bs /\ (length bs <= 4)%nat;
  de_flush : f_flush f = None }.
Record encodes (f : funcs) (R : Z -> list Z -> Prop) : Prop := {
  en_iff : forall c bs o, ucs4 c -> (emit f c o = Some (bs, o) <-> R c bs);
  en_st : forall c bs o o', ucs4 c -> emit f c o = Some (bs, o') -> o' = o;
  en_pos : forall c bs, R c bs -> ucs4 c /\ bs <> [];
  en_reset : f_reset f = None }.

(** A table of an encoding: its index, its charmap, its irreversible pairs. *)
Definition table_ok (x : Z * charmap * pairs) : Prop := exists f, nth_error all_encodings (Z.to_nat (fst (fst x))) = Some f /\
  decodes f (stands_for (snd (fst x))) /\ encodes f (maps_to (snd (fst x)) (snd x)).

(** The state does not matter to converters without state. *)
Definition with_state (i : Z * Z) (d : dres) : dres := match d with DChar k c _ => DChar k c i | DFew k _ => DFew k i | DIll k _ => DIll k i end.
Lemma dec_mb0 : forall h fl g r s i, dec (mkFuncs (mb0 h) fl g r) s i = option_map (with_state i) (dec (mkFuncs (mb0 h) fl g r) s (0, 0)).
Proof.
  intros h fl g r s (a, b). unfold dec. cbn [f_mb fst snd]. unfold mb0. destruct (h s (length s)) as [[k w]| | |]; cbn [bind dview option_map]; try reflexivity.
  destruct (k <? 0); [destruct (Z.even (-1 - k)); reflexivity|destruct w; reflexivity].
Qed.
Lemma emit_wc0 : forall h fl g r c o, emit (mkFuncs h fl (wc0 g) r) c o = option_map (fun x => (fst x, o)) (emit (mkFuncs h fl (wc0 g) r) c 0).
Proof.
  intros h fl g r c o. unfold emit. cbn [f_wc]. unfold wc0. destruct (g c 16%nat) as [[k l]| | |]; cbn; try reflexivity. destruct (k <? 0); reflexivity.
Qed.

(** ** Decoders *)
(** The bytes that may follow p: the decoder says what the charmap says; an incomplete character is one of the leads. *)
Definition is_lead (leads : list (list Z)) (p : list Z) : bool := existsb (same p) leads.
Definition next_ok (f : funcs) (leads : list (list Z)) (p : list Z) (b : Z) (d : Z) : bool :=
  let s := p ++ [b] in
  match dec f s (0, 0) with
  | Some (DChar k c (0, 0)) => if Nat.eqb k (length s) then (if d <? 0 then false else c =? d) else false
  | Some (DFew O (0, 0)) => if is_lead leads s then d <? 0 else false
  | Some (DIll O (0, 0)) => d <? 0
  | _ => false
  end.
Fixpoint row_run (f : funcs) (leads : list (list Z)) (p : list Z) (b : Z) (cs : list Z) : bool :=
  match cs with
  | [] => true
  | d :: cs' => if next_ok f leads p b d then row_run f leads p (b + 1) cs' else false
  end.
Fixpoint find_row (m : charmap) (p : list Z) : Z * list Z :=
  match m with
  | [] => (0, [])
  | (q, start, cs) :: m' => if same q p then (start, cs) else find_row m' p
  end.
(** All 256 characters of a row. *)
Definition full (x : Z * list Z) : list Z := let (start, cs) := x in
  repeat (-1) (Z.to_nat start) ++ cs ++ repeat (-1) (256 - (Z.to_nat start + length cs)).
Definition few (f : funcs) (p : list Z) : bool :=
  match p with [] => true | _ => match dec f p (0, 0) with Some (DFew O (0, 0)) => true | _ => false end end.
Definition lead_ok (f : funcs) (leads : list (list Z)) (m : charmap) (p : list Z) : bool :=
  if few f p then (if (Nat.leb (length p) 3) then row_run f leads p 0 (full (find_row m p)) else false) else false.
Definition row_bytes (x : row) : bool := let '(p, start, cs) := x in
  forallb (fun b => (0 <=? b) && (b <? 256)) p && (0 <=? start) && (start + Z.of_nat (length cs) <=? 256).
Definition dec_check (f : funcs) (leads : list (list Z)) (m : charmap) : bool :=
  forallb (fun x => is_lead leads (fst (fst x)) && row_bytes x) m && is_lead leads [] && forallb (lead_ok f leads m) leads.

Lemma same_eq : forall a b, same a b = true <-> a = b.
Proof.
  induction a as [|x a IH]; intros [|y b]; cbn; split; intros H; try discriminate; try reflexivity.
  - destruct (Z.eqb_spec x y); [|discriminate]. f_equal; [assumption|now apply IH].
  - inversion H; subst. rewrite Z.eqb_refl. now apply IH.
Qed.
Lemma is_lead_in : forall leads p, is_lead leads p = true <-> In p leads.
Proof.
  intros leads p. unfold is_lead. rewrite existsb_exists. split.
  - intros (x & I & S). apply same_eq in S. now subst.
  - intros I. exists p. split; [exact I|now apply same_eq].
Qed.
Lemma char_of_snoc : forall m p b, char_of m (p ++ [b]) = char_at m p b.
Proof. intros m p b. unfold char_of. rewrite rev_app_distr. cbn. now rewrite rev_involutive. Qed.
Lemma nth_char_range : forall l i c, nth_char l i = Some c -> i < Z.of_nat (length l).
Proof.
  induction l as [|x l IH]; cbn [nth_char length]; intros i c H; [discriminate|]. destruct (Z.eqb_spec i 0); [lia|]. apply IH in H. lia.
Qed.
Lemma nth_char_nth : forall l i, 0 <= i -> nth_char l i = match nth_error l (Z.to_nat i) with Some c => if c <? 0 then None else Some c | None => None end.
Proof.
  induction l as [|x l IH]; cbn [nth_char]; intros i H; [destruct (Z.to_nat i); reflexivity|]. destruct (Z.eqb_spec i 0); [subst; reflexivity|].
  rewrite IH by lia. replace (Z.to_nat i) with (S (Z.to_nat (i - 1))) by lia. reflexivity.
Qed.
Lemma char_at_row : forall m p b, char_at m p b = let (start, cs) := find_row m p in if b <? start then None else nth_char cs (b - start).
Proof.
  induction m as [|((q, st), cs) m IH]; intros p b; [cbn; destruct (b <? 0); reflexivity|]. cbn [char_at find_row]. destruct (same q p); [reflexivity|apply IH].
Qed.
Lemma char_at_in : forall m p b c, char_at m p b = Some c -> exists start cs, In (p, start, cs) m /\ start <= b < start + Z.of_nat (length cs) /\ nth_char cs (b - start) = Some c.
Proof.
  induction m as [|((q, st), cs) m IH]; intros p b c H; [discriminate|]. cbn [char_at] in H. destruct (same q p) eqn:E.
  - apply same_eq in E. subst q. destruct (Z.ltb_spec b st); [discriminate|]. exists st, cs. split; [now left|]. pose proof (nth_char_range _ _ _ H). split; [lia|exact H].
  - destruct (IH _ _ _ H) as (s & l & I & X). exists s, l. split; [now right|exact X].
Qed.
Lemma char_of_some : forall m bs c, char_of m bs = Some c -> exists p b, bs = p ++ [b] /\ char_at m p b = Some c.
Proof.
  intros m bs c H. destruct (exists_last (l := bs)) as (p & b & ->); [intros ->; discriminate|]. rewrite char_of_snoc in H. eauto.
Qed.
Lemma full_nth : forall st cs b, 0 <= st -> st + Z.of_nat (length cs) <= 256 -> byte b ->
  exists d, nth_error (full (st, cs)) (Z.to_nat b) = Some d /\ (if b <? st then None else nth_char cs (b - st)) = (if d <? 0 then None else Some d).
Proof.
  intros st cs b H1 H2 B. unfold full, byte in *. destruct (Z.ltb_spec b st).
  - exists (-1). split; [|reflexivity]. rewrite nth_error_app1 by (rewrite repeat_length; lia). apply nth_error_repeat. lia.
  - rewrite nth_error_app2 by (rewrite repeat_length; lia). rewrite repeat_length. replace (Z.to_nat b - Z.to_nat st)%nat with (Z.to_nat (b - st)) by lia.
    rewrite nth_char_nth by lia. destruct (nth_error cs (Z.to_nat (b - st))) as [c|] eqn:E.
    + exists c. split; [|reflexivity]. rewrite nth_error_app1; [exact E|]. apply nth_error_Some. congruence.
    + exists (-1). split; [|reflexivity]. apply nth_error_None in E. rewrite nth_error_app2 by lia. apply nth_error_repeat. lia.
Qed.
Lemma row_run_nth : forall f leads p cs b, row_run f leads p b cs = true -> forall i d, nth_error cs i = Some d -> next_ok f leads p (b + Z.of_nat i) d = true.
Proof.
  induction cs as [|x cs IH]; intros b H i d N; [destruct i; discriminate|]. cbn [row_run] in H. destruct (next_ok f leads p b x) eqn:E; [|discriminate].
  destruct i; cbn in N; [inversion N; subst; now rewrite Z.add_0_r|]. replace (b + Z.of_nat (S i)) with (b + 1 + Z.of_nat i) by lia. now apply IH.
Qed.

Section Dec.
Variable f : funcs.
Variable inv : Z * Z -> Prop.
Hypothesis S : dec_stable f inv.
Hypothesis I0 : inv (0, 0).
Variable leads : list (list Z).
Variable m : charmap.
Hypothesis C : dec_check f leads m = true.

Lemma dc_leads : forall p, In p leads -> (p = [] \/ dec f p (0, 0) = Some (DFew 0 (0, 0))) /\ (length p <= 3)%nat /\
  forall b, byte b -> exists d, next_ok f leads p b d = true /\ char_at m p b = if d <? 0 then None else Some d.
Proof.
  intros p I. pose proof C as C1. unfold dec_check in C1. apply andb_prop in C1. destruct C1 as (C1 & X). rewrite forallb_forall in X. specialize (X p I). unfold lead_ok in X.
  destruct (few f p) eqn:F; [|discriminate]. destruct (Nat.leb_spec (length p) 3); [|discriminate].
  split; [|split; [assumption|]].
  - unfold few in F. destruct p; [auto|]. right. destruct (dec f (z :: p) (0, 0)) as [[k c i|[|k] i|k i]|]; try discriminate. destruct i as [[| |] [| |]]; try discriminate. reflexivity.
  - intros b B. assert (R : 0 <= fst (find_row m p) /\ fst (find_row m p) + Z.of_nat (length (snd (find_row m p))) <= 256).
    { apply andb_prop in C1. destruct C1 as (Y & _). clear - Y. rename Y into X.
      induction m as [|((q, st), cs) m' IH]; [cbn; lia|]. cbn [forallb] in X. apply andb_prop in X. destruct X as (X1 & X2). specialize (IH X2).
      cbn [find_row]. destruct (same q p); [|exact IH]. unfold row_bytes in X1. cbn. lia. }
    rewrite char_at_row. destruct (find_row m p) as (st, cs). cbn [fst snd] in R. destruct (full_nth st cs b ltac:(lia) ltac:(lia) B) as (d & N & ->). exists d. split; [|reflexivity].
    pose proof (row_run_nth _ _ _ _ _ X _ _ N) as Y. unfold byte in B. now replace (0 + Z.of_nat (Z.to_nat b)) with b in Y by lia.
Qed.
Lemma dc_nil : In [] leads.
Proof. unfold dec_check in C. apply andb_prop in C. destruct C as (X & _). apply andb_prop in X. destruct X as (_ & X). now apply is_lead_in. Qed.
Lemma dc_map : forall p st cs, In (p, st, cs) m -> In p leads /\ bytes p /\ 0 <= st /\ st + Z.of_nat (length cs) <= 256.
Proof.
  intros p st cs H. unfold dec_check in C. apply andb_prop in C. destruct C as (X & _). apply andb_prop in X. destruct X as (X & _).
  rewrite forallb_forall in X. specialize (X _ H). apply andb_prop in X. destruct X as (X & Y). split; [now apply is_lead_in|].
  unfold row_bytes in Y. apply andb_prop in Y. destruct Y as (Y & Y3). apply andb_prop in Y. destruct Y as (Y1 & Y2). split; [|lia].
  apply Forall_forall. intros x Hx. rewrite forallb_forall in Y1. specialize (Y1 x Hx). unfold byte. lia.
Qed.

(** Walking down from a lead. *)
Lemma dc_walk : forall t p, In p leads -> bytes p -> bytes t -> t <> [] -> Z.of_nat (length (p ++ t)) <= LIM ->
  match dec f (p ++ t) (0, 0) with
  | Some (DChar k c i) => i = (0, 0) /\ (1 <= k)%nat /\ (k <= length (p ++ t))%nat /\ char_of m (firstn k (p ++ t)) = Some c
  | Some (DFew k i) | Some (DIll k i) => k = 0%nat /\ i = (0, 0)
  | None => False
  end.
Proof.
  induction t as [|b t IH]; intros p Ip Bp Bt N L; [congruence|]. inversion Bt; subst.
  destruct (dc_leads p Ip) as (_ & Lp & X). destruct (X b ltac:(assumption)) as (d & X' & G). clear X. rename X' into X. unfold next_ok in X.
  assert (Bpb : bytes (p ++ [b])) by (apply Forall_app; split; [assumption|constructor; [assumption|constructor]]).
  assert (E : p ++ b :: t = (p ++ [b]) ++ t) by now rewrite <- app_assoc.
  assert (Npb : p ++ [b] <> []) by (destruct p; discriminate).
  assert (L' : Z.of_nat (length ((p ++ [b]) ++ t)) <= LIM) by now rewrite <- E.
  rewrite E in *.
  destruct (dec f (p ++ [b]) (0, 0)) as [[k c i|[|k] i|[|k] i]|] eqn:D; try discriminate; destruct i as [[| |] [| |]]; try discriminate.
  - rewrite (s_char f inv S (p ++ [b]) t (0, 0) k c (0, 0) I0 Bpb ltac:(assumption) L' Npb D).
    destruct (Nat.eqb_spec k (length (p ++ [b]))); [|discriminate]. destruct (d <? 0); [discriminate|]. apply Z.eqb_eq in X. subst d.
    split; [reflexivity|]. split; [rewrite app_length in *; cbn in *; lia|]. split; [rewrite (app_length _ t); lia|].
    subst k. rewrite firstn_app, firstn_all, Nat.sub_diag. cbn [firstn]. rewrite app_nil_r, char_of_snoc. exact G.
  - destruct (is_lead leads (p ++ [b])) eqn:Y; [|discriminate]. apply is_lead_in in Y.
    destruct t as [|b2 t2].
    + rewrite app_nil_r, D. auto.
    + apply IH; auto. discriminate.
  - rewrite (s_ill f inv S (p ++ [b]) t (0, 0) 0%nat (0, 0) I0 Bpb ltac:(assumption) L' Npb D). auto.
Qed.
Variable h : list Z -> nat -> res (Z * option Z).
Variable g0 : Z -> nat -> Z -> res (Z * wlog * Z).
Variable r0 : option (nat -> Z -> res (Z * wlog * Z)).
Hypothesis Ef : f = mkFuncs (mb0 h) None g0 r0.
Lemma decodes_intro : decodes f (stands_for m).
Proof.
  assert (A : forall c bs, stands_for m c bs -> exists p b, bs = p ++ [b] /\ In p leads /\ bytes p /\ byte b /\ char_at m p b = Some c).
  { intros c bs H. destruct (char_of_some m bs c H) as (p & b & -> & G). destruct (char_at_in _ _ _ _ G) as (st & cs & I & R & _).
    destruct (dc_map p st cs I) as (Ip & Bp & R1 & R2). exists p, b. repeat (split; [auto; fail|]). split; [unfold byte; lia|exact G]. }
  assert (DS : forall s i, dec f s i = option_map (with_state i) (dec f s (0, 0))) by (intros s i; rewrite Ef; apply dec_mb0).
  constructor.
  - intros c bs t i H Bt L. destruct (A c bs H) as (p & b & -> & Ip & Bp & Bb & G).
    destruct (dc_leads p Ip) as (_ & Lp & X). destruct (X b Bb) as (d0 & X' & G'). clear X. rename X' into X. rewrite G in G'. unfold next_ok in X.
    assert (Bpb : bytes (p ++ [b])) by (apply Forall_app; split; [assumption|constructor; [assumption|constructor]]).
    destruct (dec f (p ++ [b]) (0, 0)) as [[k d i0|[|k] i0|[|k] i0]|] eqn:D; try discriminate; destruct i0 as [[| |] [| |]]; try discriminate.
    + destruct (Nat.eqb_spec k (length (p ++ [b]))); [|discriminate]. destruct (d0 <? 0); [discriminate|]. apply Z.eqb_eq in X. inversion G'; subst d0 d k.
      rewrite DS, (s_char f inv S (p ++ [b]) t (0, 0) (length (p ++ [b])) c (0, 0)); auto. destruct p; discriminate.
    + destruct (is_lead leads (p ++ [b])); [|discriminate]. rewrite X in G'. discriminate.
    + rewrite X in G'. discriminate.
  - intros s i k c i' B N L D. pose proof (dc_walk s [] dc_nil (Forall_nil _) B N L) as X. cbn [app] in X. rewrite DS in D.
    destruct (dec f s (0, 0)) as [d|]; [|discriminate]. destruct d as [k0 c0 i0|k0 i0|k0 i0]; cbn in D; try discriminate.
    inversion D; subst. destruct X as (_ & _ & _ & X). split; [exact X|reflexivity].
  - intros s i d B N L D. pose proof (dc_walk s [] dc_nil (Forall_nil _) B N L) as X. cbn [app] in X. rewrite DS in D.
    destruct (dec f s (0, 0)) as [d0|]; [|discriminate]. destruct d0 as [k0 c0 i0|k0 i0|k0 i0]; cbn in D; inversion D; subst; [apply X|split; [apply X|reflexivity]..].
  - intros c bs H. destruct (A c bs H) as (p & b & -> & Ip & Bp & Bb & G). destruct (dc_leads p Ip) as (_ & Lp & _).
    split; [destruct p; discriminate|]. split; [apply Forall_app; split; [assumption|constructor; [assumption|constructor]]|]. rewrite app_length. cbn. lia.
  - now rewrite Ef.
Qed.
End Dec.

(** The incomplete characters of at most n bytes. *)
Fixpoint find_leads (f : funcs) (n : nat) (p : list Z) : list (list Z) :=
  match n with
  | O => []
  | S k => flat_map (fun b => let q := p ++ [Z.of_nat b] in if few f q then q :: find_leads f k q else []) (seq 0 256)
  end.

(** ** Encoders *)
(** Half-open ranges of code points outside of which the encoder knows no character. *)
Definition ranges : Type := list (Z * Z).
Definition covered (ivs : ranges) (wc : Z) : bool := existsb (fun r => (fst r <=? wc) && (wc <? snd r)) ivs.
Lemma cov_in : forall ivs lo hi wc, In (lo, hi) ivs -> lo <= wc < hi -> covered ivs wc = true.
Proof. intros ivs lo hi wc I R. unfold covered. apply existsb_exists. exists (lo, hi). split; [exact I|]. cbn [fst snd]. lia. Qed.
Fixpoint iv_all (n : nat) (lo : Z) (p : Z -> bool) : bool := match n with O => true | S k => if p lo then iv_all k (lo + 1) p else false end.
Lemma iv_all_sound : forall n lo p, iv_all n lo p = true -> forall x, lo <= x < lo + Z.of_nat n -> p x = true.
Proof.
  induction n as [|n IH]; intros lo p H x R; [lia|]. cbn [iv_all] in H. destruct (p lo) eqn:E; [|discriminate].
  destruct (Z.eq_dec x lo); [now subst|]. apply (IH (lo + 1) p H). lia.
Qed.
(** The pairs that are to be written. *)
Fixpoint row_pairs (irr : pairs) (p : list Z) (b : Z) (cs : list Z) : list (Z * list Z) :=
  match cs with
  | [] => []
  | c :: cs' => if c <? 0 then row_pairs irr p (b + 1) cs' else let bs := p ++ [b] in
      if listed irr bs c then row_pairs irr p (b + 1) cs' else (c, bs) :: row_pairs irr p (b + 1) cs'
  end.
Definition in_map (m : charmap) (q : list Z * Z) : bool := match char_of m (fst q) with Some d => d =? snd q | None => false end.
Definition to_write (m : charmap) (irr : pairs) : list (Z * list Z) :=
  flat_map (fun q => if in_map m q then [] else [(snd q, fst q)]) irr ++ flat_map (fun x => let '(p, st, cs) := x in row_pairs irr p st cs) m.
Definition key (c : Z) : positive := Z.to_pos (c + 1).
(** As a map from characters to bytes; fails if a character occurs twice or outside of the ranges. *)
Fixpoint by_char (ivs : ranges) (l : list (Z * list Z)) (t : PositiveMap.t (list Z)) : option (PositiveMap.t (list Z)) :=
  match l with
  | [] => Some t
  | (c, bs) :: l' => if (if 0 <=? c then (if c <=? 0xffffffff then (if covered ivs c then match bs with [] => false | _ => true end else false) else false) else false) then
      match PositiveMap.find (key c) t with Some _ => None | None => by_char ivs l' (PositiveMap.add (key c) bs t) end else None
  end.
Definition written_ok (f : funcs) (t : PositiveMap.t (list Z)) (c : Z) : bool :=
  match emit f c 0 with
  | Some (bs, 0) => match PositiveMap.find (key c) t with Some x => same x bs | None => false end
  | Some _ => false
  | None => match PositiveMap.find (key c) t with Some x => false | None => true end
  end.
Fixpoint distinct (l : list (list Z)) : bool := match l with [] => true | x :: l' => if existsb (same x) l' then false else distinct l' end.
Definition enc_check (f : funcs) (ivs : ranges) (m : charmap) (irr : pairs) : bool :=
  if distinct (map (fun x => fst (fst x)) m) then
  match by_char ivs (to_write m irr) (PositiveMap.empty _) with
  | None => false
  | Some t => forallb (fun r => if 0 <=? fst r then iv_all (Z.to_nat (snd r - fst r)) (fst r) (written_ok f t) else false) ivs
  end else false.

Lemma listed_in : forall l bs c, listed l bs c = true <-> In (bs, c) l.
Proof.
  induction l as [|(x, d) l IH]; cbn; intros bs c; [split; [discriminate|tauto]|]. destruct (Z.eqb_spec d c).
  - destruct (same x bs) eqn:E; [apply same_eq in E; subst; split; auto|]. rewrite IH. split; [auto|]. intros [H|H]; [|exact H]. inversion H; subst.
    assert (same bs bs = true) by now apply same_eq. congruence.
  - rewrite IH. split; [auto|]. intros [H|H]; [inversion H; congruence|exact H].
Qed.
Lemma row_pairs_in : forall irr p cs b c bs, In (c, bs) (row_pairs irr p b cs) <->
  exists i, 0 <= i /\ nth_char cs i = Some c /\ bs = p ++ [b + i] /\ listed irr bs c = false.
Proof.
  induction cs as [|x cs IH]; intros b c bs; [cbn; split; [tauto|intros (i & _ & H & _); discriminate]|]. cbn [row_pairs].
  assert (Q : (exists i, 0 <= i /\ nth_char (x :: cs) i = Some c /\ bs = p ++ [b + i] /\ listed irr bs c = false) <->
    ((x <? 0) = false /\ x = c /\ bs = p ++ [b] /\ listed irr bs c = false) \/ In (c, bs) (row_pairs irr p (b + 1) cs)).
  { rewrite IH. split.
    - intros (i & Hi & N & E & K). cbn [nth_char] in N. destruct (Z.eqb_spec i 0).
      + left. subst i. rewrite Z.add_0_r in E. destruct (x <? 0); [discriminate|]. inversion N. auto.
      + right. exists (i - 1). split; [lia|]. split; [exact N|]. split; [|exact K]. rewrite E. do 2 f_equal. lia.
    - intros [(N & -> & E & K)|(i & Hi & N & E & K)].
      + exists 0. cbn [nth_char]. rewrite N. cbn. rewrite Z.add_0_r. split; [lia|auto].
      + exists (i + 1). split; [lia|]. cbn [nth_char]. destruct (Z.eqb_spec (i + 1) 0); [lia|]. replace (i + 1 - 1) with i by lia.
        split; [exact N|]. split; [|exact K]. rewrite E. do 2 f_equal. lia. }
  rewrite Q. destruct (x <? 0); [split; [auto|intros [(H & _)|H]; [discriminate|exact H]]|]. cbv zeta.
  destruct (listed irr (p ++ [b]) x) eqn:L.
  - split; [auto|]. intros [(_ & -> & -> & K)|H]; [congruence|exact H].
  - cbn [In]. split; (intros [H|H]; [left|right; exact H]); [inversion H; subst; auto|]. destruct H as (_ & -> & -> & _). reflexivity.
Qed.
Lemma distinct_NoDup : forall l, distinct l = true -> NoDup l.
Proof.
  induction l as [|x l IH]; cbn; intros H; constructor; destruct (existsb (same x) l) eqn:E; try discriminate.
  - intros I. assert (existsb (same x) l = true); [|congruence]. apply existsb_exists. exists x. split; [exact I|now apply same_eq].
  - now apply IH.
Qed.
Lemma char_at_iff : forall m p b c, NoDup (map (fun x => fst (fst x)) m) ->
  (char_at m p b = Some c <-> exists st cs i, In (p, st, cs) m /\ 0 <= i /\ b = st + i /\ nth_char cs i = Some c).
Proof.
  intros m p b c ND. split.
  - intros H. destruct (char_at_in _ _ _ _ H) as (st & cs & I & R & N). exists st, cs, (b - st). repeat split; [exact I|lia|lia|exact N].
  - intros (st & cs & i & I & Hi & -> & N). revert ND I. induction m as [|((q, s), l) m IH]; [intros _ []|]. cbn [map fst]. intros ND. inversion ND; subst.
    intros [H|I]; cbn [char_at].
    + inversion H; subst. replace (same p p) with true by (symmetry; now apply same_eq). destruct (Z.ltb_spec (st + i) st); [lia|].
      replace (st + i - st) with i by lia. exact N.
    + destruct (same q p) eqn:E; [|now apply IH]. apply same_eq in E. subst q. exfalso. apply H1. apply in_map_iff. exists (p, st, cs). auto.
Qed.
Lemma to_write_in : forall m irr c bs, NoDup (map (fun x => fst (fst x)) m) -> (In (c, bs) (to_write m irr) <-> maps_to m irr c bs).
Proof.
  intros m irr c bs ND. unfold to_write, maps_to, maps_tob. rewrite in_app_iff, !in_flat_map.
  change (match char_of m bs with Some d => d =? c | None => false end) with (in_map m (bs, c)).
  assert (A : (exists x, In x irr /\ In (c, bs) (if in_map m x then [] else [(snd x, fst x)])) <-> in_map m (bs, c) = false /\ listed irr bs c = true).
  { split.
    - intros ((x, d) & I & H). cbn [fst snd] in H. destruct (in_map m (x, d)) eqn:E; [destruct H|]. destruct H as [H|[]]. inversion H; subst. split; [exact E|now apply listed_in].
    - intros (E & L). apply listed_in in L. exists (bs, c). rewrite E. cbn. auto. }
  assert (B : (exists x, In x m /\ In (c, bs) (let '(p, st, cs) := x in row_pairs irr p st cs)) <-> in_map m (bs, c) = true /\ listed irr bs c = false).
  { unfold in_map. cbn [fst snd]. split.
    - intros (((p, st), cs) & I & H). apply row_pairs_in in H. destruct H as (i & Hi & N & -> & L). split; [|exact L].
      rewrite char_of_snoc. assert (X : char_at m p (st + i) = Some c); [|rewrite X; apply Z.eqb_refl]. apply char_at_iff; [exact ND|]. exists st, cs, i. auto.
    - intros (E & L). destruct (char_of m bs) as [d|] eqn:K; [|discriminate]. apply Z.eqb_eq in E. subst d. destruct (char_of_some m bs c K) as (p & b & -> & X).
      apply char_at_iff in X; [|exact ND]. destruct X as (st & cs & i & I & Hi & -> & N). exists (p, st, cs). split; [exact I|]. apply row_pairs_in. exists i. auto. }
  rewrite A, B. destruct (in_map m (bs, c)), (listed irr bs c); cbn; intuition discriminate.
Qed.
Lemma key_inj : forall a b, 0 <= a -> 0 <= b -> key a = key b -> a = b.
Proof. intros a b Ha Hb H. unfold key in H. apply (f_equal Zpos) in H. rewrite !Z2Pos.id in H by lia. lia. Qed.
Lemma by_char_spec : forall ivs l t t', by_char ivs l t = Some t' ->
  (forall c bs, In (c, bs) l -> ucs4 c /\ bs <> [] /\ covered ivs c = true) /\
  forall c bs, 0 <= c -> (PositiveMap.find (key c) t' = Some bs <-> PositiveMap.find (key c) t = Some bs \/ In (c, bs) l).
Proof.
  induction l as [|(d, x) l IH]; intros t t' H.
  - inversion H; subst. split; [intros c bs []|]. intros c bs _. cbn. tauto.
  - cbn [by_char] in H. destruct (Z.leb_spec 0 d); [|discriminate]. destruct (Z.leb_spec d 0xffffffff); [|discriminate]. destruct (covered ivs d) eqn:K; [|discriminate].
    destruct x as [|x0 x]; [discriminate|]. destruct (PositiveMap.find (key d) t) eqn:F; [discriminate|]. destruct (IH _ _ H) as (A & B). split.
    + intros c bs [E|I]; [inversion E; subst|now apply A]. split; [unfold ucs4; lia|]. split; [discriminate|exact K].
    + intros c bs Hc. rewrite B by exact Hc. destruct (Z.eq_dec c d).
      * subst d. rewrite PositiveMap.gss. cbn [In]. split.
        -- intros [E|I]; [inversion E; auto|auto].
        -- intros [E|[E|I]]; [congruence|inversion E; auto|auto].
      * rewrite PositiveMap.gso by (intros E; apply key_inj in E; lia). cbn [In]. split; [intros [E|I]; auto|]. intros [E|[E|I]]; [auto|inversion E; congruence|auto].
Qed.
Lemma encodes_intro : forall f mb fl g ivs m irr, f = mkFuncs mb fl (wc0 g) None ->
  (forall c, ucs4 c -> covered ivs c = false -> holds (g c 16%nat) (fun x => fst x < 0)) ->
  enc_check f ivs m irr = true -> encodes f (maps_to m irr).
Proof.
  intros f mb fl g ivs m irr Ef Out C. unfold enc_check in C.
  destruct (distinct (map (fun x => fst (fst x)) m)) eqn:ND; [|discriminate]. apply distinct_NoDup in ND.
  destruct (by_char ivs (to_write m irr) (PositiveMap.empty _)) as [t|] eqn:T; [|discriminate]. destruct (by_char_spec _ _ _ _ T) as (A & B).
  rewrite forallb_forall in C.
  assert (ES : forall c o, emit f c o = option_map (fun x => (fst x, o)) (emit f c 0)) by (intros c o; rewrite Ef; apply emit_wc0).
  assert (ST : forall c bs o o', emit f c o = Some (bs, o') -> o' = o).
  { intros c bs o o' H. rewrite ES in H. destruct (emit f c 0); [|discriminate]. now inversion H. }
  assert (FT : forall c bs, 0 <= c -> (PositiveMap.find (key c) t = Some bs <-> maps_to m irr c bs)).
  { intros c bs Hc. rewrite B by exact Hc. rewrite PositiveMap.gempty, <- to_write_in by exact ND. split; [intros [H|H]; [discriminate|exact H]|auto]. }
  constructor; [|intros c bs o o' _; apply ST| |now rewrite Ef].
  - intros c bs o U. assert (U' := U). unfold ucs4 in U'. rewrite <- FT by lia.
    destruct (covered ivs c) eqn:K.
    + unfold covered in K. apply existsb_exists in K. destruct K as ((lo, hi) & I & R). cbn [fst snd] in R. specialize (C _ I). cbn [fst snd] in C.
      destruct (0 <=? lo); [|discriminate]. pose proof (iv_all_sound _ _ _ C c ltac:(lia)) as X. unfold written_ok in X. rewrite ES.
      destruct (emit f c 0) as [[x [| |]]|]; try discriminate; cbn [option_map fst].
      * destruct (PositiveMap.find (key c) t) as [y|]; [|discriminate]. apply same_eq in X. subst y. split; intros H; inversion H; auto.
      * destruct (PositiveMap.find (key c) t) as [y|]; [discriminate|]. split; discriminate.
    + split; intros H.
      * exfalso. specialize (Out c U K). unfold emit in H. rewrite Ef in H. unfold wc0 in H. cbn [f_wc] in H.
        destruct (g c 16%nat) as [[r l]| | |]; cbn in *; try discriminate. destruct (Z.ltb_spec r 0); [discriminate|lia].
      * exfalso. rewrite FT in H by lia. rewrite <- to_write_in in H by exact ND. destruct (A _ _ H) as (_ & _ & X). congruence.
  - intros c bs H. rewrite <- to_write_in in H by exact ND. destruct (A _ _ H) as (X & Y & _). auto.
Qed.

(** Stepping through an encoder outside of the ranges. *)
Definition covers_range (ivs : ranges) (a b : Z) : bool := existsb (fun r => (fst r <=? a) && (b <=? snd r)) ivs.
Lemma cov_range : forall ivs a b wc, covers_range ivs a b = true -> a <= wc -> wc < b -> covered ivs wc = true.
Proof. intros ivs a b wc H L R. unfold covers_range in H. apply existsb_exists in H. destruct H as ((lo, hi) & I & X). cbn [fst snd] in X. apply (cov_in ivs lo hi); [exact I|lia]. Qed.
Lemma cov_range' : forall ivs a b wc, covers_range ivs a (b + 1) = true -> a <= wc -> wc <= b -> covered ivs wc = true.
Proof. intros ivs a b wc H L R. apply (cov_range ivs a (b + 1)); auto. lia. Qed.
Lemma cov_point : forall ivs wc a, covers_range ivs a (a + 1) = true -> wc = a -> covered ivs wc = true.
Proof. intros ivs wc a H E. apply (cov_range ivs a (a + 1)); auto; lia. Qed.
Lemma cov_low : forall ivs b wc, covers_range ivs 0 b = true -> wc < b -> 0 <= wc -> covered ivs wc = true.
Proof. intros. eapply cov_range; eauto. Qed.
Ltac outside :=
  match goal with K : covered ?ivs ?wc = false |- _ => exfalso;
    first
    [ match goal with H1 : ?a <= wc, H2 : wc < ?b |- _ => rewrite (cov_range ivs a b wc ltac:(reflexivity) H1 H2) in K; discriminate K end
    | match goal with H1 : ?a <= wc, H2 : wc <= ?b |- _ => rewrite (cov_range' ivs a b wc ltac:(reflexivity) H1 H2) in K; discriminate K end
    | match goal with H2 : wc = ?b |- _ => rewrite (cov_point ivs wc b ltac:(reflexivity) H2) in K; discriminate K end
    | match goal with H2 : wc < ?b |- _ => rewrite (cov_low ivs b wc ltac:(reflexivity) H2 ltac:(lia)) in K; discriminate K end ]
  end.
Ltac sx_call m ::= outside.
Ltac enc_outside := let c := fresh "wc" in let U := fresh "U" in let K := fresh "K" in intros c U K; unfold ucs4 in U; sx;
  first [outside | cbn [fst]; lia].
(** The same, gap by gap: for encoders with many special cases. *)
Lemma cov_next : forall lo hi t wc, covered ((lo, hi) :: t) wc = false -> wc < lo \/ hi <= wc /\ covered t wc = false.
Proof. intros lo hi t wc H. unfold covered in *. cbn [existsb fst snd] in H. apply orb_false_elim in H. destruct H as (A & B). rewrite B. lia. Qed.
Ltac gap_run := try lia; sx; cbn [fst]; lia.
Ltac gaps K L :=
  lazymatch type of K with
  | covered ((_, _) :: _) _ = false => let R := fresh "R" in let L' := fresh "L" in let K' := fresh "K" in
      destruct (cov_next _ _ _ _ K) as [R|(L', K')]; clear K; [gap_run|clear L; gaps K' L']
  | covered [] _ = false => clear K; gap_run
  end.
Ltac enc_gaps := let c := fresh "wc" in let U := fresh "U" in let L := fresh "L" in let K := fresh "K" in intros c U K; unfold ucs4 in U;
  match type of K with covered ?ivs _ = _ => unfold ivs in K end; assert (L : 0 <= c) by lia; gaps K L.
