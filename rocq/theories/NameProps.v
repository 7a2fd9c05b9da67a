(** How the name functions of Names.v behave on every name that fits their buffer. *)
From Coq Require Import ZArith List Bool String Ascii Lia.
From Verif Require Import Base Indexes Loop LoopLib Reflect Encodings AliasTab PubIdx Api Names.
Import ListNotations.
Open Scope Z_scope.

(** * Specification: the canonical spelling of a name *)
Definition upper (c : Z) : Z := if (0x61 <=? c) && (c <=? 0x7a) then c - 32 else c.
Definition ignored (c : Z) : bool := (c =? 0x2d) || (c =? 0x5f).
Definition canon (name : list Z) : list Z := map upper (filter (fun c => negb (ignored c)) name).
(** A C string, and one of 7-bit characters. *)
Definition cname (s : list Z) : Prop := Forall (fun c => 1 <= c < 256) s.
Definition ascii_name (s : list Z) : Prop := Forall (fun c => 1 <= c < 128) s.
(** The text before the first '/'. *)
Fixpoint before_slash (s : list Z) : list Z :=
  match s with [] => [] | c :: s => if c =? 0x2f then [] else c :: before_slash s end.
(** "//IGNORE". *)
Definition ignore_suffix : list Z := [0x2f; 0x2f; 0x49; 0x47; 0x4e; 0x4f; 0x52; 0x45].

(** * Equality of byte lists *)
Fixpoint zl_eqb (a b : list Z) : bool :=
  match a, b with [], [] => true | x :: a, y :: b => (x =? y) && zl_eqb a b | _, _ => false end.
Lemma zl_eqb_eq : forall a b, zl_eqb a b = true <-> a = b.
Proof.
  induction a as [|x a IH]; destruct b as [|y b]; cbn; split; intros H; try discriminate; auto.
  - apply andb_true_iff in H. destruct H as (H1 & H2). apply Z.eqb_eq in H1. apply IH in H2. congruence.
  - inversion H; subst. rewrite Z.eqb_refl. now apply IH.
Qed.

(** * Canonical names *)
Lemma upper_range : forall c, 1 <= c < 256 -> 1 <= upper c < 256.
Proof. intros c H. unfold upper. destruct ((0x61 <=? c) && (c <=? 0x7a)) eqn:E; [|exact H]. apply andb_true_iff in E. lia. Qed.
Lemma upper_ascii : forall c, 1 <= c < 128 -> 1 <= upper c < 128.
Proof. intros c H. unfold upper. destruct ((0x61 <=? c) && (c <=? 0x7a)) eqn:E; [|exact H]. apply andb_true_iff in E. lia. Qed.
Lemma canon_cname : forall s, cname s -> cname (canon s).
Proof.
  induction s as [|c s IH]; intros H; [constructor|]. inversion H; subst. unfold canon. cbn.
  destruct (ignored c); cbn; [now apply IH|]. constructor; [now apply upper_range|now apply IH].
Qed.
Lemma canon_ascii : forall s, ascii_name s -> ascii_name (canon s).
Proof.
  induction s as [|c s IH]; intros H; [constructor|]. inversion H; subst. unfold canon. cbn.
  destruct (ignored c); cbn; [now apply IH|]. constructor; [now apply upper_ascii|now apply IH].
Qed.
Lemma ascii_cname : forall s, ascii_name s -> cname s.
Proof. intros s H. eapply Forall_impl; [|exact H]. cbn. lia. Qed.
Lemma canon_length : forall s, (List.length (canon s) <= List.length s)%nat.
Proof. intros s. unfold canon. rewrite map_length. induction s as [|c s IH]; cbn; [lia|]. destruct (ignored c); cbn; lia. Qed.
Lemma ignored_upper : forall c, ignored c = false -> ignored (upper c) = false.
Proof.
  intros c H. unfold upper. destruct ((0x61 <=? c) && (c <=? 0x7a)) eqn:E; [|exact H]. apply andb_true_iff in E.
  unfold ignored. destruct (Z.eqb_spec (c - 32) 0x2d); [lia|]. destruct (Z.eqb_spec (c - 32) 0x5f); [lia|]. reflexivity.
Qed.
Lemma upper_upper : forall c, upper (upper c) = upper c.
Proof.
  intros c. unfold upper. destruct ((0x61 <=? c) && (c <=? 0x7a)) eqn:E; [|now rewrite E]. apply andb_true_iff in E.
  destruct ((0x61 <=? c - 32) && (c - 32 <=? 0x7a)) eqn:F; [|reflexivity]. apply andb_true_iff in F. lia.
Qed.
Lemma canon_before : forall s, canon (before_slash (canon s)) = before_slash (canon s).
Proof.
  induction s as [|c s IH]; [reflexivity|]. unfold canon in *. cbn [filter]. destruct (ignored c) eqn:E; cbn [negb]; [exact IH|].
  cbn [map before_slash]. destruct (upper c =? 0x2f); [reflexivity|]. cbn [filter]. rewrite (ignored_upper _ E). cbn [negb map].
  now rewrite upper_upper, IH.
Qed.
Lemma before_ascii : forall s, ascii_name s -> ascii_name (before_slash s).
Proof. induction s as [|c s IH]; intros H; cbn; [constructor|]. inversion H; subst. destruct (c =? 0x2f); constructor; auto. now apply IH. Qed.
Lemma before_length : forall s, (List.length (before_slash s) <= List.length s)%nat.
Proof. induction s as [|c s IH]; cbn; [lia|]. destruct (c =? 0x2f); cbn; lia. Qed.

(** * reiconv_name_canonicalize *)
Lemma poke_at : forall pre x post v, poke (pre ++ x :: post) (List.length pre) v = Some (pre ++ v :: post).
Proof. induction pre as [|y pre IH]; intros; cbn; [reflexivity|]. now rewrite IH. Qed.
Lemma poke_end : forall pre v, poke pre (List.length pre) v = None.
Proof. induction pre as [|y pre IH]; intros; cbn; [reflexivity|]. now rewrite IH. Qed.

Lemma canon_loop_ok : forall name pre buf, (List.length (canon name) < List.length buf)%nat ->
  canon_loop name (pre ++ buf) (List.length pre) =
  Ok ((List.length pre + List.length (canon name))%nat, pre ++ canon name ++ 0 :: skipn (S (List.length (canon name))) buf).
Proof.
  induction name as [|c name IH]; intros pre buf H.
  - destruct buf as [|b buf]; [cbn in H; lia|]. cbn [canon_loop]. rewrite poke_at, Nat.add_0_r. reflexivity.
  - cbn [canon_loop]. change (if (c >=? 97) && (c <=? 122) then c - (97 - 65) else c) with (if (c >=? 97) && (c <=? 122) then c - 32 else c).
    rewrite Z.geb_leb. fold (upper c).
    assert (IG : (upper c =? 45) || (upper c =? 95) = ignored c).
    { unfold upper. destruct ((0x61 <=? c) && (c <=? 0x7a)) eqn:E; [|reflexivity]. apply andb_true_iff in E. unfold ignored.
      destruct (Z.eqb_spec (c - 32) 45); [lia|]. destruct (Z.eqb_spec (c - 32) 95); [lia|].
      destruct (Z.eqb_spec c 0x2d); [lia|]. destruct (Z.eqb_spec c 0x5f); [lia|]. reflexivity. }
    rewrite IG. unfold canon in *. cbn [filter] in *. destruct (ignored c); cbn [negb] in *; [now apply IH|].
    cbn [map] in *. destruct buf as [|b buf]; [cbn in H; lia|]. rewrite poke_at.
    specialize (IH (pre ++ [upper c]) buf). rewrite app_length, <- !app_assoc in IH. cbn [List.length app] in IH.
    rewrite Nat.add_1_r in IH. rewrite IH by (cbn in H; lia). cbn [List.length skipn app]. do 2 f_equal. lia.
Qed.
Lemma canonicalize_ok : forall name buf, (List.length (canon name) < List.length buf)%nat ->
  reiconv_name_canonicalize name buf = Ok (List.length (canon name), canon name ++ 0 :: skipn (S (List.length (canon name))) buf).
Proof. intros name buf H. exact (canon_loop_ok name [] buf H). Qed.
Lemma canon_loop_ub : forall name pre buf, (List.length buf <= List.length (canon name))%nat ->
  canon_loop name (pre ++ buf) (List.length pre) = UB.
Proof.
  induction name as [|c name IH]; intros pre buf H.
  - destruct buf as [|b buf]; [|cbn in H; lia]. cbn [canon_loop]. now rewrite app_nil_r, poke_end.
  - cbn [canon_loop]. change (if (c >=? 97) && (c <=? 122) then c - (97 - 65) else c) with (if (c >=? 97) && (c <=? 122) then c - 32 else c).
    rewrite Z.geb_leb. fold (upper c).
    assert (IG : (upper c =? 45) || (upper c =? 95) = ignored c).
    { unfold upper. destruct ((0x61 <=? c) && (c <=? 0x7a)) eqn:E; [|reflexivity]. apply andb_true_iff in E. unfold ignored.
      destruct (Z.eqb_spec (c - 32) 45); [lia|]. destruct (Z.eqb_spec (c - 32) 95); [lia|].
      destruct (Z.eqb_spec c 0x2d); [lia|]. destruct (Z.eqb_spec c 0x5f); [lia|]. reflexivity. }
    rewrite IG. unfold canon in *. cbn [filter] in *. destruct (ignored c); cbn [negb] in *; [now apply IH|].
    cbn [map] in *. destruct buf as [|b buf].
    + now rewrite app_nil_r, poke_end.
    + rewrite poke_at. specialize (IH (pre ++ [upper c]) buf). rewrite app_length, <- !app_assoc in IH. cbn [List.length app] in IH.
      rewrite Nat.add_1_r in IH. apply IH. cbn in H. lia.
Qed.
Lemma canonicalize_ub : forall name buf, (List.length buf <= List.length (canon name))%nat -> reiconv_name_canonicalize name buf = UB.
Proof. intros name buf H. exact (canon_loop_ub name [] buf H). Qed.

(** * aliases_lookup *)
Lemma rd_app : forall {A} s t i (k : Z -> res A), (i < List.length s)%nat -> rd (s ++ t) i k = rd s i k.
Proof. intros. unfold rd. now rewrite nth_error_app1. Qed.
Lemma rd_in : forall {A} s i (k : Z -> res A), (i < List.length s)%nat -> exists c, In c s /\ rd s i k = k c.
Proof.
  intros A s i k H. unfold rd. destruct (nth_error s i) eqn:E; [|apply nth_error_None in E; lia].
  exists z. split; [eapply nth_error_In; eauto|reflexivity].
Qed.
Lemma hash_fall_app : forall s t ps h, Forall (fun p => (fst p < List.length s)%nat) ps -> hash_fall (s ++ t) ps h = hash_fall s ps h.
Proof.
  intros s t. induction ps as [|(i, off) ps IH]; intros h H; [reflexivity|]. inversion H; subst. cbn [hash_fall]. cbn in H2.
  rewrite rd_app by assumption. unfold rd. destruct (nth_error s i); [|reflexivity]. unfold tget.
  destruct (tlookup asso_values (z + off)); [|reflexivity]. now apply IH.
Qed.
Definition asso_ok (i : Z) : bool := match tlookup asso_values i with Some _ => true | None => false end.
Lemma asso_all : forall i, 0 <= i < 132 -> asso_ok i = true.
Proof. apply (upto_sound 132). reflexivity. Qed.
Lemma asso_get : forall {A} i (k : Z -> res A), 0 <= i < 132 -> exists v, tget asso_values i k = k v.
Proof. intros A i k H. pose proof (asso_all i H) as E. unfold asso_ok in E. unfold tget. destruct (tlookup asso_values i); [eauto|discriminate]. Qed.
Lemma hash_fall_ok : forall s ps h, ascii_name s -> Forall (fun p => (fst p < List.length s)%nat /\ 0 <= snd p <= 4) ps ->
  exists v, hash_fall s ps h = Ok v.
Proof.
  intros s ps h A. revert h. induction ps as [|(i, off) ps IH]; intros h H; [cbn; eauto|]. inversion H; subst. cbn [hash_fall].
  destruct (rd_in s i (fun c => tget asso_values (c + off) (fun v => hash_fall s ps (u32 (h + v))))) as (c & IC & ->); [tauto|].
  unfold ascii_name in A. rewrite Forall_forall in A. specialize (A c IC). cbn in H2.
  destruct (asso_get (c + off) (fun v => hash_fall s ps (u32 (h + v)))) as (v & ->); [lia|]. now apply IH.
Qed.

Definition hash_ps (len : nat) : list (nat * Z) :=
  skipn (if (1 <=? u32 (Z.of_nat len)) && (u32 (Z.of_nat len) <=? 9) then Nat.sub 10 (Z.to_nat (u32 (Z.of_nat len))) else 0%nat) hash_cases.
Lemma hash_ps_ok : forall len, (1 <= len <= 40)%nat -> Forall (fun p => (fst p < len)%nat /\ 0 <= snd p <= 4) (hash_ps len).
Proof.
  intros len H.
  assert (C : upto 41 (fun l => (l =? 0) || forallb (fun p => Nat.ltb (fst p) (Z.to_nat l) && (0 <=? snd p) && (snd p <=? 4)) (hash_ps (Z.to_nat l))) = true) by reflexivity.
  pose proof (upto_sound _ _ C (Z.of_nat len) ltac:(lia)) as D. cbv beta in D. rewrite Nat2Z.id in D.
  apply orb_true_iff in D. destruct D as [D|D]; [apply Z.eqb_eq in D; lia|]. rewrite forallb_forall in D. apply Forall_forall.
  intros p I. specialize (D p I). rewrite !andb_true_iff in D. destruct D as ((D1 & D2) & D3). apply Nat.ltb_lt in D1. lia.
Qed.
Lemma hash_app : forall s t, s <> [] -> (List.length s <= 40)%nat -> aliases_hash (s ++ t) (List.length s) = aliases_hash s (List.length s).
Proof.
  intros s t N L. assert (1 <= List.length s)%nat by (destruct s; [congruence|cbn; lia]).
  unfold aliases_hash. fold (hash_ps (List.length s)). rewrite hash_fall_app.
  - destruct (hash_fall s _ _); cbn [bind]; try reflexivity. unfold nsub. destruct (Nat.leb 1 (List.length s)); [|reflexivity]. now rewrite rd_app by lia.
  - eapply Forall_impl; [|apply hash_ps_ok; lia]. cbn. intros p (P & _). lia.
Qed.
Lemma hash_ok : forall s, ascii_name s -> s <> [] -> (List.length s <= 40)%nat -> exists v, aliases_hash s (List.length s) = Ok v.
Proof.
  intros s A N L. assert (1 <= List.length s)%nat by (destruct s; [congruence|cbn; lia]).
  unfold aliases_hash. fold (hash_ps (List.length s)).
  destruct (hash_fall_ok s (hash_ps (List.length s)) (u32 (Z.of_nat (List.length s))) A) as (v & ->); [apply hash_ps_ok; lia|]. unfold bind, nsub.
  replace (Nat.leb 1 (List.length s)) with true by (symmetry; apply Nat.leb_le; lia).
  match goal with |- exists v0, rd s ?i ?k = _ => destruct (rd_in s i k) as (c & IC & ->); [lia|] end.
  unfold ascii_name in A. rewrite Forall_forall in A. specialize (A c IC).
  match goal with |- exists v0, tget _ _ ?k = _ => destruct (asso_get c k) as (w & ->); [lia|] end. eauto.
Qed.

Lemma strcmp_spec : forall t s j, Forall (fun c => c <> 0) t -> Forall (fun c => c <> 0) s ->
  strcmp_eq (t ++ 0 :: j) s = Ok (zl_eqb t s).
Proof.
  induction t as [|c t IH]; intros s j H1 H2; destruct s as [|d s]; cbn [app strcmp_eq zl_eqb]; try reflexivity.
  - inversion H2; subst. destruct (Z.eqb_spec 0 d); [congruence|reflexivity].
  - inversion H1; subst. destruct (Z.eqb_spec c 0); [congruence|reflexivity].
  - inversion H1; inversion H2; subst. destruct (Z.eqb_spec c d); [cbn [andb]; now apply IH|reflexivity].
Qed.
Lemma slot_in_In : forall l key s e, slot_in l key = Some (s, e) -> In (key, s, e) l.
Proof.
  induction l as [|((k, s0), e0) l IH]; cbn; intros key s e H; [discriminate|]. destruct (Z.eqb_spec k key) as [->|]; [inversion H; auto|auto].
Qed.

(** The alias with the hash value of s, if it is s. *)
Definition hashed (s : list Z) (e : Z) : Prop :=
  exists key n, aliases_hash s (List.length s) = Ok key /\ key <= MAX_HASH_VALUE /\ alias_at key = Some (n, e) /\ s = codes n.
Definition slot_good (x : Z * string * Z) : bool :=
  match codes (snd (fst x)) with [] => false | l => forallb (fun c => (1 <=? c) && (c <? 128)) l && (Z.of_nat (List.length l) <=? 39) && (2 <=? Z.of_nat (List.length l)) end.
Lemma slots_good : forallb slot_good alias_slots = true.
Proof. vm_compute. reflexivity. Qed.
Lemma slot_name : forall key n e, alias_at key = Some (n, e) ->
  codes n <> [] /\ ascii_name (codes n) /\ (2 <= List.length (codes n) <= 39)%nat.
Proof.
  intros key n e H. apply slot_in_In in H. pose proof slots_good as G. rewrite forallb_forall in G. specialize (G _ H).
  unfold slot_good in G. cbn [fst snd] in G. destruct (codes n) as [|c l] eqn:E; [discriminate|].
  rewrite !andb_true_iff in G. destruct G as ((G1 & G2) & G3). split; [discriminate|]. split; [|lia].
  apply Forall_forall. intros x Hx. rewrite forallb_forall in G1. specialize (G1 x Hx). rewrite andb_true_iff in G1. lia.
Qed.
Lemma ascii_nz : forall s, ascii_name s -> Forall (fun c => c <> 0) s.
Proof. intros s H. eapply Forall_impl; [|exact H]. cbn. lia. Qed.

Lemma lookup_spec : forall s j, ascii_name s -> (List.length s <= 40)%nat ->
  exists r, aliases_lookup (s ++ 0 :: j) (List.length s) = Ok r /\ forall e, r = Some e <-> hashed s e.
Proof.
  intros s j A L. unfold aliases_lookup. change MAX_WORD_LENGTH with 39. change MIN_WORD_LENGTH with 2.
  destruct ((Z.of_nat (List.length s) <=? 39) && (Z.of_nat (List.length s) >=? 2)) eqn:LEN.
  2: { exists None. split; [reflexivity|]. intros e. split; [discriminate|]. intros (key & n & _ & _ & AT & ->).
       destruct (slot_name _ _ _ AT) as (_ & _ & B). apply andb_false_iff in LEN. destruct LEN as [X|X]; [apply Z.leb_gt in X|rewrite Z.geb_leb in X; apply Z.leb_gt in X]; lia. }
  apply andb_true_iff in LEN. destruct LEN as (L1 & L2). rewrite Z.geb_leb in L2. apply Z.leb_le in L1, L2.
  assert (N : s <> []) by (destruct s; [cbn in L2; lia|discriminate]).
  rewrite hash_app by (auto; lia). destruct (hash_ok s A N L) as (key & HK). rewrite HK. unfold bind at 1.
  destruct (Z.leb_spec key MAX_HASH_VALUE) as [LE|GT].
  2: { exists None. split; [reflexivity|]. intros e. split; [discriminate|]. intros (key' & n & H1 & H2 & _). rewrite HK in H1. inversion H1; subst. lia. }
  destruct (alias_at key) as [(n, e0)|] eqn:AT.
  2: { exists None. split; [reflexivity|]. intros e. split; [discriminate|]. intros (key' & n & H1 & _ & H3 & _). rewrite HK in H1. inversion H1; subst. congruence. }
  destruct (slot_name _ _ _ AT) as (NN & NA & _).
  assert (KEY : forall e, hashed s e <-> (s = codes n /\ e = e0)).
  { intros e. split.
    - intros (key' & n' & H1 & _ & H3 & H4). rewrite HK in H1. inversion H1; subst key'. rewrite AT in H3. inversion H3; subst. auto.
    - intros (H1 & ->). exists key, n. auto. }
  destruct s as [|c s]; [congruence|]. destruct (codes n) as [|d s'] eqn:CN; [congruence|].
  change (rd ((c :: s) ++ 0 :: j) 0) with (fun k : Z -> res (option Z) => k c). cbv beta.
  destruct (Z.eqb_spec c d) as [->|ND].
  - cbn [skipn app]. rewrite strcmp_spec; [|apply ascii_nz in A; now inversion A|apply ascii_nz in NA; now inversion NA].
    unfold bind. destruct (zl_eqb s s') eqn:Q.
    + apply zl_eqb_eq in Q. subst s'. exists (Some e0). split; [reflexivity|]. intros e. rewrite KEY. split; [intros X; inversion X; auto|intros (_ & ->); reflexivity].
    + exists None. split; [reflexivity|]. intros e. rewrite KEY. split; [discriminate|]. intros (X & _). inversion X; subst.
      assert (zl_eqb s' s' = true) by now apply zl_eqb_eq. congruence.
  - exists None. split; [reflexivity|]. intros e. rewrite KEY. split; [discriminate|]. intros (X & _). inversion X. congruence.
Qed.

(** * reiconv_lookup_from_name *)
Lemma from_name_spec : forall buf name, List.length buf = NAMEBUF -> ascii_name name -> (List.length (canon name) <= 40)%nat ->
  exists i, reiconv_lookup_from_name buf name = Ok i /\
    ((i = -1 /\ forall e, ~ hashed (canon name) e) \/ (0 <= i /\ hashed (canon name) i)).
Proof.
  intros buf name B A L. unfold reiconv_lookup_from_name. rewrite canonicalize_ok by (rewrite B; change NAMEBUF with 41%nat; lia). unfold bind at 1.
  destruct (lookup_spec (canon name) (skipn (S (List.length (canon name))) buf) (canon_ascii _ A) L) as (r & -> & S). unfold bind.
  destruct r as [e|].
  - exists e. split; [reflexivity|]. right. assert (HS : hashed (canon name) e) by now apply S. split; [|exact HS].
    destruct HS as (key & n & _ & _ & AT & _). apply slot_in_In in AT.
    assert (G : forallb (fun x => (0 <=? snd x) && (snd x <? 198)) alias_slots = true) by (vm_compute; reflexivity).
    rewrite forallb_forall in G. specialize (G _ AT). cbn in G. apply andb_true_iff in G. lia.
  - exists (-1). split; [reflexivity|]. left. split; [reflexivity|]. intros e H. apply S in H. discriminate.
Qed.

(** * The scan for '/' *)
Lemma memcmp_spec : forall n mem pat, (n <= List.length mem)%nat -> (n <= List.length pat)%nat ->
  memcmp_eq mem pat n = Ok (zl_eqb (firstn n mem) (firstn n pat)).
Proof.
  induction n as [|n IH]; intros mem pat H1 H2; [reflexivity|]. destruct mem as [|c mem]; [cbn in H1; lia|]. destruct pat as [|d pat]; [cbn in H2; lia|].
  cbn [memcmp_eq firstn zl_eqb]. rewrite IH by (cbn in *; lia). reflexivity.
Qed.
Definition deslash (c : Z) : Z := if c =? 0x2f then 0 else c.
Fixpoint scanb (cmp : nat) (s : list Z) : bool :=
  match s with
  | [] => false
  | _ :: t => zl_eqb (if Nat.eqb cmp 7 then firstn 8 s else s) ignore_suffix || scanb cmp t
  end.
Lemma lor_flag : forall (f : Z) (b : bool), f = 0 \/ f = 1 -> Z.lor f (b2z b) = 0 \/ Z.lor f (b2z b) = 1.
Proof. intros f b [->| ->]; destruct b; cbn; auto. Qed.
Lemma b2z_lor : forall (f : Z) (a b : bool), f = 0 \/ f = 1 -> Z.lor (if a then Z.lor f 1 else f) (b2z b) = Z.lor f (b2z (a || b)).
Proof. intros f a b [->| ->]; destruct a, b; reflexivity. Qed.
Lemma zl_eqb_hd : forall (c : Z) s (d : Z) t, zl_eqb (c :: s) (d :: t) = (c =? d) && zl_eqb s t.
Proof. reflexivity. Qed.
Lemma zl_eqb_len : forall a b, List.length a <> List.length b -> zl_eqb a b = false.
Proof. intros a b H. destruct (zl_eqb a b) eqn:E; [|reflexivity]. apply zl_eqb_eq in E. congruence. Qed.
Lemma zl_eqb_snoc : forall a b x y, List.length a = List.length b -> zl_eqb (a ++ [x]) (b ++ [y]) = zl_eqb a b && (x =? y).
Proof.
  induction a as [|c a IH]; destruct b as [|d b]; cbn; intros x y H; try discriminate; [apply andb_true_r|].
  rewrite IH by lia. now rewrite andb_assoc.
Qed.

Lemma scan_spec : forall cmp s pre j flag, (cmp = 7 \/ cmp = 8)%nat -> Forall (fun c => c <> 0) s -> flag = 0 \/ flag = 1 ->
  scan_slash cmp (List.length s) (List.length pre) (List.length pre + List.length s) (pre ++ s ++ 0 :: j) flag =
  Ok (pre ++ map deslash s ++ 0 :: j, Z.lor flag (b2z (scanb cmp s))).
Proof.
  intros cmp. induction s as [|c s IH]; intros pre j flag CMP NZ F.
  - cbn. now rewrite Z.lor_0_r.
  - inversion NZ as [|? ? NZ1 NZ2]; subst. cbn [List.length scan_slash].
    assert (RD : forall k : Z -> res (list Z * Z), rd (pre ++ (c :: s) ++ 0 :: j) (List.length pre) k = k c).
    { intros k. unfold rd. rewrite nth_error_app2 by lia. now rewrite Nat.sub_diag. }
    rewrite RD. clear RD. cbn [map scanb app]. unfold deslash at 1.
    assert (NEXT : forall x f, f = 0 \/ f = 1 -> scan_slash cmp (List.length s) (S (List.length pre)) (List.length pre + S (List.length s)) (pre ++ x :: s ++ 0 :: j) f =
       Ok (pre ++ x :: map deslash s ++ 0 :: j, Z.lor f (b2z (scanb cmp s)))).
    { intros x f Hf. specialize (IH (pre ++ [x]) j f CMP NZ2 Hf). rewrite app_length in IH. cbn [List.length] in IH. rewrite <- !app_assoc in IH. cbn [app] in IH.
      rewrite Nat.add_1_r in IH. rewrite <- IH. f_equal; lia. }
    destruct (Z.eqb_spec c 47) as [->|NS].
    2: { rewrite NEXT by exact F. do 2 f_equal. f_equal. f_equal.
         assert (E : zl_eqb (if Nat.eqb cmp 7 then firstn 8 (c :: s) else c :: s) ignore_suffix = false).
         { destruct (Nat.eqb cmp 7); cbn [firstn]; unfold ignore_suffix; rewrite zl_eqb_hd; apply Z.eqb_neq in NS; now rewrite NS. }
         rewrite E. reflexivity. }
    rewrite poke_at. destruct (Nat.ltb (List.length pre + 7) (List.length pre + S (List.length s))) eqn:LT.
    2: { rewrite NEXT by exact F. do 2 f_equal. apply Nat.ltb_ge in LT. f_equal. f_equal.
         rewrite zl_eqb_len; [reflexivity|]. destruct (Nat.eqb cmp 7); [rewrite firstn_length|]; cbn [List.length ignore_suffix]; lia. }
    apply Nat.ltb_lt in LT.
    replace (skipn (List.length pre + 1) (pre ++ 0 :: s ++ 0 :: j)) with (s ++ 0 :: j).
    2: { rewrite skipn_app. replace (List.length pre + 1 - List.length pre)%nat with 1%nat by lia. rewrite skipn_all2 by lia. reflexivity. }
    rewrite memcmp_spec.
    2: { rewrite app_length. cbn [List.length]. destruct CMP; lia. }
    2: { change (List.length IGNORE) with 8%nat. destruct CMP; lia. }
    unfold bind.
    set (m := zl_eqb (firstn cmp (s ++ 0 :: j)) (firstn cmp IGNORE)).
    assert (M : m = zl_eqb (if Nat.eqb cmp 7 then firstn 8 (47 :: s) else 47 :: s) ignore_suffix).
    { unfold m. destruct CMP as [->| ->]; cbn [Nat.eqb].
      - rewrite firstn_app. replace (7 - List.length s)%nat with 0%nat by lia. cbn [firstn]. rewrite app_nil_r. cbn [firstn]. reflexivity.
      - destruct (Nat.eq_dec (List.length s) 7) as [E7|N7].
        + assert (F8 : firstn 8 (s ++ 0 :: j) = s ++ [0]).
          { rewrite firstn_app. replace (8 - List.length s)%nat with 1%nat by lia. rewrite firstn_all2 by lia. reflexivity. }
          rewrite F8. change (firstn 8 IGNORE) with (codes "/IGNORE" ++ [0]). rewrite zl_eqb_snoc by (rewrite E7; reflexivity).
          rewrite Z.eqb_refl, andb_true_r. reflexivity.
        + rewrite (zl_eqb_len (47 :: s)) by (cbn [List.length ignore_suffix]; lia).
          assert (F8 : firstn 8 (s ++ 0 :: j) = firstn 8 s).
          { rewrite firstn_app. replace (8 - List.length s)%nat with 0%nat by lia. apply app_nil_r. }
          rewrite F8. destruct (zl_eqb (firstn 8 s) (firstn 8 IGNORE)) eqn:Q; [|reflexivity]. apply zl_eqb_eq in Q. exfalso.
          assert (IZ : In 0 s). { rewrite <- (firstn_skipn 8 s), Q. apply in_or_app. left. cbn. tauto. }
          rewrite Forall_forall in NZ2. now apply (NZ2 0 IZ). }
    rewrite NEXT by (destruct m; [apply (lor_flag flag true F)|exact F]).
    do 2 f_equal. change REICONV_DISCARD_ILSEQ with 1. rewrite b2z_lor by exact F. now rewrite M.
Qed.

Lemma cstr_deslash : forall {A} s j (k : list Z -> res A), Forall (fun c => c <> 0) s ->
  cstr (map deslash s ++ 0 :: j) k = k (before_slash s).
Proof.
  intros A. induction s as [|c s IH]; intros j k H; [reflexivity|]. inversion H; subst. cbn [map app cstr before_slash]. replace (deslash c) with (if c =? 0x2f then 0 else c) by reflexivity.
  destruct (Z.eqb_spec c 0x2f) as [->|N]; [reflexivity|]. destruct (Z.eqb_spec c 0); [congruence|]. rewrite IH by assumption. reflexivity.
Qed.

(** "//IGNORE" in the text, and at its end. *)
Definition occurs (p s : list Z) : Prop := exists a b, s = a ++ p ++ b.
Definition ends_with (p s : list Z) : Prop := exists a, s = a ++ p.
Lemma scanb_occurs : forall s, scanb 7 s = true <-> occurs ignore_suffix s.
Proof.
  induction s as [|c s IH].
  - cbn. split; [discriminate|]. intros (a & b & H). destruct a; discriminate.
  - cbn [scanb Nat.eqb]. rewrite orb_true_iff, IH, zl_eqb_eq. split.
    + intros [H|(a & b & H)].
      * exists [], (skipn 8 (c :: s)). cbn [app]. rewrite <- (firstn_skipn 8 (c :: s)) at 1. now rewrite H.
      * exists (c :: a), b. now rewrite H.
    + intros (a & b & H). destruct a as [|x a].
      * left. cbn [app] in H. rewrite H. change 8%nat with (List.length ignore_suffix). now rewrite firstn_app, firstn_all, Nat.sub_diag, app_nil_r.
      * right. exists a, b. now inversion H.
Qed.
Lemma scanb_ends : forall s, scanb 8 s = true <-> ends_with ignore_suffix s.
Proof.
  induction s as [|c s IH].
  - cbn. split; [discriminate|]. intros (a & H). destruct a; discriminate.
  - cbn [scanb Nat.eqb]. rewrite orb_true_iff, IH, zl_eqb_eq. split.
    + intros [H|(a & H)]; [exists []; now rewrite H|exists (c :: a); now rewrite H].
    + intros (a & H). destruct a as [|x a]; [left; exact H|right; exists a; now inversion H].
Qed.
