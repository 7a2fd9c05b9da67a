(** Properties of encoding selection: names, codepages, constants, opening a descriptor (C24-C29, C44). *)
From Coq Require Import ZArith List Bool String Ascii Lia.
From Verif Require Import Base Indexes Loop LoopLib Reflect Encodings AliasTab PubIdx Api Names NameProps.
From Verif Require Public.
Import ListNotations.
Open Scope Z_scope.

(** A name fits if its canonical spelling has at most 40 characters. *)
Definition fits (name : list Z) : Prop := (List.length (canon name) <= 40)%nat.
Definition buffer (b : list Z) : Prop := List.length b = NAMEBUF.
Definition junk : list Z := repeat 0xaa NAMEBUF.
Lemma junk_buffer : buffer junk.
Proof. reflexivity. Qed.

(** * C24 *)
(** Two names that differ only in the case of ASCII letters and in '-' and '_'. *)
Inductive same_name : list Z -> list Z -> Prop :=
| same_nil : same_name [] []
| same_char c a b : same_name a b -> same_name (c :: a) (c :: b)
| same_case c a b : 0x41 <= c <= 0x5a -> same_name a b -> same_name (c + 32 :: a) (c :: b)
| same_case' c a b : 0x41 <= c <= 0x5a -> same_name a b -> same_name (c :: a) (c + 32 :: b)
| same_skip c a b : c = 0x2d \/ c = 0x5f -> same_name a b -> same_name (c :: a) b
| same_skip' c a b : c = 0x2d \/ c = 0x5f -> same_name a b -> same_name a (c :: b).

Lemma same_canon : forall a b, same_name a b -> canon a = canon b.
Proof.
  assert (UP : forall c, 0x41 <= c <= 0x5a -> upper c = c /\ upper (c + 32) = c /\ ((c =? 0x5f) = false) /\ ignored (c + 32) = false /\ ignored c = false).
  { intros c H. unfold upper, ignored. destruct (Z.leb_spec 0x61 c); [lia|]. destruct (Z.leb_spec 0x61 (c + 32)); [|lia]. destruct (Z.leb_spec (c + 32) 0x7a); [|lia].
    destruct (Z.eqb_spec c 0x5f); [lia|]. destruct (Z.eqb_spec c 0x2d); [lia|]. destruct (Z.eqb_spec (c + 32) 0x2d); [lia|]. destruct (Z.eqb_spec (c + 32) 0x5f); [lia|].
    cbn. repeat split; lia. }
  intros a b H. unfold canon. induction H; cbn [filter]; auto.
  - destruct (ignored c); cbn; congruence.
  - destruct (UP c H) as (U1 & U2 & _ & U3 & U4). rewrite U3, U4. cbn. congruence.
  - destruct (UP c H) as (U1 & U2 & _ & U3 & U4). rewrite U3, U4. cbn. congruence.
  - destruct H as [->| ->]; exact IHsame_name.
  - destruct H as [->| ->]; exact IHsame_name.
Qed.

Lemma cname_nz : forall s, cname s -> Forall (fun c => c <> 0) s.
Proof. intros s H. eapply Forall_impl; [|exact H]. cbn. lia. Qed.
Lemma aliases_lookup_junk : forall s j j', Forall (fun c => c <> 0) s ->
  aliases_lookup (s ++ 0 :: j) (List.length s) = aliases_lookup (s ++ 0 :: j') (List.length s).
Proof.
  intros s j j' H. unfold aliases_lookup. change MAX_WORD_LENGTH with 39. change MIN_WORD_LENGTH with 2.
  destruct ((Z.of_nat (List.length s) <=? 39) && (Z.of_nat (List.length s) >=? 2)) eqn:LEN; [|reflexivity].
  apply andb_true_iff in LEN. destruct LEN as (L1 & L2). rewrite Z.geb_leb in L2. apply Z.leb_le in L1, L2.
  destruct s as [|c s]; [cbn in L2; lia|]. rewrite !hash_app by (try discriminate; lia).
  destruct (aliases_hash (c :: s) (List.length (c :: s))); cbn [bind]; try reflexivity.
  destruct (a <=? MAX_HASH_VALUE); [|reflexivity]. destruct (alias_at a) as [(n, e)|] eqn:AT; [|reflexivity].
  change (rd ((c :: s) ++ 0 :: j) 0) with (fun k : Z -> res (option Z) => k c). change (rd ((c :: s) ++ 0 :: j') 0) with (fun k : Z -> res (option Z) => k c). cbv beta.
  destruct (slot_name _ _ _ AT) as (_ & NA & _). apply ascii_nz in NA. destruct (codes n) as [|d s']; [reflexivity|]. destruct (c =? d); [|reflexivity].
  cbn [skipn app]. inversion H; inversion NA; subst. now rewrite !strcmp_spec.
Qed.
Lemma lookup_canon : forall b b' n n', buffer b -> buffer b' -> cname n -> canon n = canon n' ->
  reiconv_lookup_from_name b n = reiconv_lookup_from_name b' n'.
Proof.
  intros b b' n n' B B' C E. unfold reiconv_lookup_from_name.
  destruct (Nat.ltb_spec (List.length (canon n)) NAMEBUF) as [L|L].
  - rewrite canonicalize_ok by (rewrite B; exact L). rewrite E. rewrite canonicalize_ok by (rewrite B', <- E; exact L). cbn [bind].
    rewrite (aliases_lookup_junk (canon n') _ (skipn (S (List.length (canon n'))) b')); [reflexivity|]. rewrite <- E. apply cname_nz. now apply canon_cname.
  - rewrite canonicalize_ub by (rewrite B; lia). rewrite canonicalize_ub by (rewrite B', <- E; lia). reflexivity.
Qed.

Theorem C24_name_spelling : forall b b' n n', buffer b -> buffer b' -> cname n -> same_name n n' ->
  reiconv_lookup_from_name b n = reiconv_lookup_from_name b' n'.
Proof. intros b b' n n' B B' C S. apply lookup_canon; auto. now apply same_canon. Qed.
Example C24_example : same_name (codes "shift-jis") (codes "Shift_JIS") /\ reiconv_lookup_from_name junk (codes "shift-jis") = Ok ei_sjis.
Proof.
  split; [|vm_compute; reflexivity].
  change (codes "shift-jis") with [0x53 + 32; 0x68; 0x69; 0x66; 0x74; 0x2d; 0x4a + 32; 0x49 + 32; 0x53 + 32].
  change (codes "Shift_JIS") with [0x53; 0x68; 0x69; 0x66; 0x74; 0x5f; 0x4a; 0x49; 0x53].
  apply same_case; [lia|]. do 4 apply same_char. apply same_skip; [now left|]. apply same_skip'; [now right|].
  do 3 (apply same_case; [lia|]). constructor.
Qed.
(** The canonical spelling itself, as reiconv_name_canonicalize delivers it. *)
Theorem C24_canonicalize : forall name outbuf, (List.length (canon name) < List.length outbuf)%nat ->
  exists rest, reiconv_name_canonicalize name outbuf = Ok (List.length (canon name), canon name ++ 0 :: rest) /\
    List.length (canon name ++ 0 :: rest) = List.length outbuf /\ rest = skipn (S (List.length (canon name))) outbuf.
Proof.
  intros name outbuf H. eexists. split; [now apply canonicalize_ok|]. split; [|reflexivity].
  rewrite app_length. cbn [List.length]. rewrite skipn_length. lia.
Qed.

(** * C25 *)
(** s is the canonical spelling of a name that lib/encodings.h.snippet declares for encoding number i. *)
Definition declared_for (i : Z) (s : list Z) : Prop :=
  exists names n, In (i, names) declared_names /\ In n names /\ s = canon (codes n).
(** Declared names that the generated hash table does not know (it was generated from an older snippet), and one
    that is declared twice. *)
Definition stale : list (Z * string) := [
  (ei_ucs2be, "UNICODEFFFE"); (ei_iso2022_jp, "CP50220"); (ei_iso2022_jp, "50220"); (ei_iso2022_jp, "CP50222"); (ei_iso2022_jp, "50222");
  (ei_iso2022_cn, "CP50227"); (ei_iso2022_cn, "50227"); (ei_iso2022_cn, "XCP50227"); (ei_iso8859_8, "ISO88598I");
  (ei_cp949, "KSC56011987")]%string.

Definition declaredb (i : Z) (s : list Z) : bool :=
  existsb (fun p => if fst p =? i then existsb (fun n => zl_eqb s (canon (codes n))) (snd p) else false) declared_names.
Lemma declaredb_sound : forall i s, declaredb i s = true -> declared_for i s.
Proof.
  intros i s H. apply existsb_exists in H. destruct H as ((j, names) & I & H2). cbn [fst snd] in H2.
  destruct (Z.eqb_spec j i) as [->|]; [|discriminate]. apply existsb_exists in H2. destruct H2 as (n & IN & Q). apply zl_eqb_eq in Q. exists names, n. auto.
Qed.
(** An alias whose string contains '-' can never be the result: canonical names have no '-'. *)
Definition slot_declared (x : Z * string * Z) : bool :=
  let '(_, s, e) := x in existsb ignored (codes s) || declaredb e (codes s).
Lemma slots_declared : forallb slot_declared alias_slots = true.
Proof. vm_compute. reflexivity. Qed.
Lemma canon_not_ignored : forall s, existsb ignored (canon s) = false.
Proof.
  induction s as [|c s IH]; [reflexivity|]. unfold canon in *. cbn [filter]. destruct (ignored c) eqn:E; cbn [negb]; [exact IH|].
  cbn [map existsb]. rewrite (ignored_upper _ E). exact IH.
Qed.

Theorem C25_lookup_sound : forall buf name i, buffer buf -> ascii_name name -> fits name ->
  reiconv_lookup_from_name buf name = Ok i -> i = -1 \/ declared_for i (canon name).
Proof.
  intros buf name i B A F E. destruct (from_name_spec buf name B A F) as (i' & E' & [(-> & _)|(_ & H)]); rewrite E in E'; inversion E'; subst; [now left|].
  right. destruct H as (key & n & _ & _ & AT & CN). apply slot_in_In in AT. pose proof slots_declared as G. rewrite forallb_forall in G.
  specialize (G _ AT). cbn [slot_declared] in G. apply orb_true_iff in G. rewrite <- CN in G. rewrite canon_not_ignored in G. destruct G as [G|G]; [discriminate|].
  now apply declaredb_sound.
Qed.

Definition is_stale (i : Z) (n : string) : bool := existsb (fun p => (fst p =? i) && String.eqb (snd p) n) stale.
Definition found (buf : list Z) (s : list Z) (i : Z) : bool := match reiconv_lookup_from_name buf s with Ok j => j =? i | _ => false end.
Lemma all_found : forallb (fun p => forallb (fun n => is_stale (fst p) n || (found junk (codes n) (fst p) && forallb (fun c => (1 <=? c) && (c <? 128)) (codes n))) (snd p)) declared_names = true.
Proof. vm_compute. reflexivity. Qed.
Lemma is_stale_in : forall i n, is_stale i n = true -> In (i, n) stale.
Proof.
  intros i n H. apply existsb_exists in H. destruct H as ((j, m) & I & H). apply andb_true_iff in H. cbn in H. destruct H as (H1 & H2).
  apply Z.eqb_eq in H1. apply String.eqb_eq in H2. now subst.
Qed.
Theorem C25_lookup_complete_partial : forall buf name i names n, buffer buf -> cname name ->
  In (i, names) declared_names -> In n names -> ~ In (i, n) stale -> canon name = canon (codes n) ->
  reiconv_lookup_from_name buf name = Ok i.
Proof.
  intros buf name i names n B C D I NS E. pose proof all_found as G. rewrite forallb_forall in G. specialize (G _ D). cbn [fst snd] in G.
  rewrite forallb_forall in G. specialize (G _ I). apply orb_true_iff in G. destruct G as [G|G]; [contradiction NS; now apply is_stale_in|].
  apply andb_true_iff in G. destruct G as (G & G2). unfold found in G.
  rewrite (lookup_canon buf junk name (codes n) B junk_buffer C E).
  destruct (reiconv_lookup_from_name junk (codes n)); try discriminate. apply Z.eqb_eq in G. now subst.
Qed.
(** What is missing: the stale names are declared, but not found. *)
Theorem C25_complete_refuted : forall i n, In (i, n) stale ->
  (exists names, In (i, names) declared_names /\ In n names) /\
  exists j, reiconv_lookup_from_name junk (codes n) = Ok j /\ j <> i.
Proof.
  assert (C : forallb (fun p => existsb (fun d => (fst d =? fst p) && existsb (String.eqb (snd p)) (snd d)) declared_names &&
    match reiconv_lookup_from_name junk (codes (snd p)) with Ok j => negb (j =? fst p) | _ => false end) stale = true) by (vm_compute; reflexivity).
  intros i n I. rewrite forallb_forall in C. specialize (C _ I). cbn [fst snd] in C. apply andb_true_iff in C. destruct C as (C1 & C2). split.
  - apply existsb_exists in C1. destruct C1 as ((j, names) & J1 & J2). apply andb_true_iff in J2. destruct J2 as (J2 & J3). cbn in J2, J3. apply Z.eqb_eq in J2. subst j.
    exists names. split; [exact J1|]. apply existsb_exists in J3. destruct J3 as (m & M1 & M2). apply String.eqb_eq in M2. now subst.
  - destruct (reiconv_lookup_from_name junk (codes n)); try discriminate. exists a. split; [reflexivity|]. apply negb_true_iff, Z.eqb_neq in C2. exact C2.
Qed.
Example C25_example : declared_for ei_koi8_r (canon (codes "Koi8-r")) /\ reiconv_lookup_from_name junk (codes "Koi8-r") = Ok ei_koi8_r /\
  reiconv_lookup_from_name junk (codes "no-such-name") = Ok (-1).
Proof. split; [apply declaredb_sound; vm_compute; reflexivity|split; vm_compute; reflexivity]. Qed.
(** Two commas are missing in the snippet, so four intended names are not known. *)
Example C25_joined_literals : map (reiconv_lookup_from_name junk) (map codes ["IBM921"; "CP28603"; "CSISO885915"; "CP28605"]%string) = repeat (Ok (-1)) 4
  /\ reiconv_lookup_from_name junk (codes "IBM921CP28603") = Ok ei_iso8859_13.
Proof. split; vm_compute; reflexivity. Qed.

(** * C26 *)
Theorem C26_lookup_safe_partial : forall buf name, buffer buf -> ascii_name name -> fits name ->
  exists i, reiconv_lookup_from_name buf name = Ok i /\ (i = -1 \/ 0 <= i < Z.of_nat (List.length all_encodings)).
Proof.
  intros buf name B A F. destruct (from_name_spec buf name B A F) as (i & E & [(-> & _)|(P & H)]); [exists (-1); auto|]. exists i. split; [exact E|]. right.
  destruct H as (key & n & _ & _ & AT & _). apply slot_in_In in AT.
  assert (G : forallb (fun x => (snd x <? 198)) alias_slots = true) by (vm_compute; reflexivity).
  rewrite forallb_forall in G. specialize (G _ AT). cbn [snd] in G. change (Z.of_nat (List.length all_encodings)) with 198. lia.
Qed.
(** Every longer name is written past the end of the local array. *)
Theorem C26_long_name_overflows : forall buf name, buffer buf -> (40 < List.length (canon name))%nat -> reiconv_lookup_from_name buf name = UB.
Proof.
  intros buf name B H. unfold reiconv_lookup_from_name. rewrite canonicalize_ub; [reflexivity|]. rewrite B. change NAMEBUF with 41%nat. lia.
Qed.
Theorem C26_refuted_long : exists name, ascii_name name /\ forall buf, buffer buf -> reiconv_lookup_from_name buf name = UB.
Proof.
  exists (repeat 0x41 41). split; [apply Forall_forall; intros x H; apply repeat_spec in H; subst; lia|].
  intros buf B. apply C26_long_name_overflows; [exact B|]. apply Nat.ltb_lt. reflexivity.
Qed.
(** A short name with a byte above 0x7f indexes the hash table's character table out of bounds. *)
Theorem C26_refuted_non_ascii : exists name, cname name /\ fits name /\ forall buf, buffer buf -> reiconv_lookup_from_name buf name = UB.
Proof.
  exists [0x4c; 0xe9; 0x31]. split; [repeat constructor; lia|]. split; [unfold fits; cbn; lia|].
  intros buf B. rewrite (lookup_canon buf junk _ [0x4c; 0xe9; 0x31] B junk_buffer); [vm_compute; reflexivity|repeat constructor; lia|reflexivity].
Qed.
Example C26_example : ascii_name (codes "ISO-8859-1") /\ fits (codes "ISO-8859-1") /\ reiconv_lookup_from_name junk (codes "ISO-8859-1") = Ok ei_iso8859_1.
Proof. split; [|split; [unfold fits; cbn; lia|vm_compute; reflexivity]]. apply Forall_forall. intros x H. cbn in H. intuition lia. Qed.

(** The C++ constructor from a name throws exactly when the lookup fails. *)
Theorem C25_cpp_constructor : forall buf name i, buffer buf -> ascii_name name -> fits name ->
  (Encoding_name buf name = Ok (Index i) <-> reiconv_lookup_from_name buf name = Ok i /\ 0 <= i) /\
  (Encoding_name buf name = Ok Invalid_argument <-> reiconv_lookup_from_name buf name = Ok (-1)).
Proof.
  intros buf name i B A F. destruct (C26_lookup_safe_partial buf name B A F) as (j & E & R). unfold Encoding_name. rewrite E. cbn [bind].
  destruct (Z.eqb_spec j (-1)) as [->|N]; (split; [split; [intros X|intros (X & Y)]|split; intros X]); try discriminate; try (inversion X; subst; split || auto; auto; lia); auto;
    inversion X; subst; lia.
Qed.
Example C25_cpp_case : Encoding_name junk (codes "utf-8") = Ok (Index ei_utf8) /\ Encoding_name junk (codes "us-ascii") = Ok (Index 0) /\
  Encoding_name junk (codes "utf-88") = Ok Invalid_argument.
Proof. repeat split; vm_compute; reflexivity. Qed.

(** * C27 *)
Lemma cp_in_spec : forall l cp acc, NoDup (map fst l) ->
  (exists e, In (cp, e) l /\ cp_in l cp acc = e + 1) \/ (~ In cp (map fst l) /\ cp_in l cp acc = acc).
Proof.
  induction l as [|(c, e) l IH]; intros cp acc N; cbn [cp_in map fst]; [right; auto|]. inversion N; subst.
  destruct (Z.eqb_spec c cp) as [->|NE].
  - left. exists e. split; [now left|]. destruct (IH cp (e + 1) H2) as [(e' & I & _)|(_ & ->)]; [|reflexivity].
    contradiction H1. apply in_map_iff. exists (cp, e'). auto.
  - destruct (IH cp acc H2) as [(e' & I & E)|(I & E)]; [left; exists e'; split; [now right|exact E]|].
    right. split; [|exact E]. intros [->|X]; [congruence|contradiction].
Qed.
Fixpoint nodupb (l : list Z) : bool := match l with [] => true | x :: l => negb (existsb (Z.eqb x) l) && nodupb l end.
Lemma nodupb_sound : forall l, nodupb l = true -> NoDup l.
Proof.
  induction l as [|x l IH]; intros H; constructor; cbn in H; apply andb_true_iff in H; [|now apply IH].
  destruct H as (H & _). intros I. apply negb_true_iff in H. assert (existsb (Z.eqb x) l = true) by (apply existsb_exists; exists x; split; [exact I|apply Z.eqb_refl]). congruence.
Qed.
Lemma codepages_nodup : NoDup (map fst declared_codepages).
Proof. apply nodupb_sound. vm_compute. reflexivity. Qed.
Lemma codepages_range : forall cp e, In (cp, e) declared_codepages -> 0 <= cp < 65002 /\ 0 <= e < Z.of_nat (List.length all_encodings).
Proof.
  assert (G : forallb (fun p => (0 <=? fst p) && (fst p <? 65002) && (0 <=? snd p) && (snd p <? 198)) declared_codepages = true) by (vm_compute; reflexivity).
  intros cp e I. rewrite forallb_forall in G. specialize (G _ I). cbn [fst snd] in G. change (Z.of_nat (List.length all_encodings)) with 198. lia.
Qed.
Lemma codepage_count_eq : codepage_count = 65002.
Proof. vm_compute. reflexivity. Qed.

Theorem C27_codepage_partial : forall cp, 0 <= cp < 65002 -> exists i, reiconv_lookup_from_codepage cp = Ok i /\
  (In (cp, i) declared_codepages \/ (i = -1 /\ forall e, ~ In (cp, e) declared_codepages)).
Proof.
  intros cp H. unfold reiconv_lookup_from_codepage, codepage_to_eindex. rewrite codepage_count_eq.
  replace ((0 <=? cp) && (cp <? 65002)) with true by (symmetry; apply andb_true_iff; lia).
  destruct (cp_in_spec declared_codepages cp 0 codepages_nodup) as [(e & I & E)|(I & E)]; rewrite E.
  - exists e. split; [f_equal; lia|]. now left.
  - exists (-1). split; [reflexivity|]. right. split; [reflexivity|]. intros e J. apply I. apply in_map_iff. exists (cp, e). auto.
Qed.
Theorem C27_declared_codepage : forall cp i, In (cp, i) declared_codepages -> reiconv_lookup_from_codepage cp = Ok i.
Proof.
  intros cp i I. destruct (codepages_range _ _ I) as (R & _). destruct (C27_codepage_partial cp R) as (j & E & [J|(_ & J)]); [|contradiction (J i I)].
  rewrite E. f_equal. pose proof codepages_nodup as N.
  revert I J N. generalize declared_codepages. induction l as [|(c, e) l IH]; [intros []|]. cbn. intros [A|A] [B|B] N; inversion N; subst; try (inversion A; inversion B; congruence).
  - inversion A; subst. contradiction H1. apply in_map_iff. exists (cp, j). auto.
  - inversion B; subst. contradiction H1. apply in_map_iff. exists (cp, i). auto.
  - auto.
Qed.
(** Any other integer reads outside of the array. *)
Theorem C27_refuted : forall cp, cp < 0 \/ 65002 <= cp -> reiconv_lookup_from_codepage cp = UB.
Proof.
  intros cp H. unfold reiconv_lookup_from_codepage, codepage_to_eindex. rewrite codepage_count_eq.
  replace ((0 <=? cp) && (cp <? 65002)) with false; [reflexivity|]. symmetry. apply andb_false_iff. destruct H; [left|right]; apply Z.leb_gt || apply Z.ltb_ge; lia.
Qed.
Example C27_example : reiconv_lookup_from_codepage 932 = Ok ei_cp932 /\ reiconv_lookup_from_codepage 1 = Ok (-1) /\ reiconv_lookup_from_codepage 99999 = UB.
Proof. repeat split; vm_compute; reflexivity. Qed.

(** The C++ constructor from a codepage number gives the encoding declared with it and throws for the others. *)
Theorem C27_cpp_constructor : forall cp, 0 <= cp < 65002 ->
  (forall i, Encoding_codepage cp = Ok (Index i) <-> In (cp, i) declared_codepages) /\
  (Encoding_codepage cp = Ok Invalid_argument <-> forall e, ~ In (cp, e) declared_codepages).
Proof.
  intros cp H. destruct (C27_codepage_partial cp H) as (j & E & J). unfold Encoding_codepage. rewrite E. cbn [bind].
  destruct J as [J|(-> & J)].
  - destruct (codepages_range _ _ J) as (_ & R). destruct (Z.eqb_spec j (-1)); [lia|]. split.
    + intros i. split; intros X; [inversion X; now subst|]. apply C27_declared_codepage in X. rewrite E in X. now inversion X.
    + split; [discriminate|]. intros X. contradiction (X j J).
  - cbn. split; [|split; auto]. intros i. split; [discriminate|]. intros X. contradiction (J i X).
Qed.
Example C27_cpp_case : Encoding_codepage 932 = Ok (Index ei_cp932) /\ Encoding_codepage 367 = Ok (Index 0) /\ Encoding_codepage 1 = Ok Invalid_argument.
Proof. repeat split; vm_compute; reflexivity. Qed.

(** * C28 *)
(** A new descriptor from encoding i to encoding j. *)
Definition fresh (cd : conv) (i j flags : Z) : Prop :=
  iindex cd = i /\ oindex cd = j /\ encoding_at i = Some (ifuncs cd) /\ encoding_at j = Some (ofuncs cd) /\
  istate cd = 0 /\ ostate cd = 0 /\ ibyteorder cd = 0 /\ (discard_ilseq cd <> 0 <-> Z.odd flags = true).
Lemma odd_land : forall f, Z.land f 1 <> 0 <-> Z.odd f = true.
Proof.
  intros f. change 1 with (Z.ones 1). rewrite Z.land_ones by lia. change (2 ^ 1) with 2. rewrite Zmod_odd. destruct (Z.odd f); split; intros H; try lia; auto.
Qed.
Lemma encoding_at_in : forall i, 0 <= i < Z.of_nat (List.length all_encodings) -> exists f, encoding_at i = Some f.
Proof.
  intros i H. unfold encoding_at. destruct (Z.ltb_spec i 0); [lia|]. destruct (nth_error all_encodings (Z.to_nat i)) eqn:E; [eauto|].
  apply nth_error_None in E. lia.
Qed.
Lemma open_index_ok : forall i j flags, 0 <= i < Z.of_nat (List.length all_encodings) -> 0 <= j < Z.of_nat (List.length all_encodings) ->
  exists cd, reiconv_open_from_index true i j flags = Ok (inl cd) /\ fresh cd i j flags.
Proof.
  intros i j flags I J. destruct (encoding_at_in i I) as (f & F). destruct (encoding_at_in j J) as (g & G). unfold reiconv_open_from_index. rewrite F, G.
  eexists. split; [reflexivity|]. unfold fresh. cbn [iindex oindex ifuncs ofuncs istate ostate ibyteorder discard_ilseq]. repeat (split; [auto; fail|]).
  apply odd_land.
Qed.
(** The outcome of opening, given the two lookup results. *)
Definition opening (mem : bool) (i j flags : Z) (r : conv + errno) : Prop :=
  if (i =? -1) || (j =? -1) then r = inr EINVAL
  else if mem then exists cd, r = inl cd /\ fresh cd i j flags else r = inr ENOMEM.
Lemma opening_ok : forall mem i j flags, i = -1 \/ 0 <= i < Z.of_nat (List.length all_encodings) -> j = -1 \/ 0 <= j < Z.of_nat (List.length all_encodings) ->
  exists r, (if (i =? -1) || (j =? -1) then Ok (inr EINVAL) else reiconv_open_from_index mem i j flags) = Ok r /\ opening mem i j flags r.
Proof.
  intros mem i j flags I J. unfold opening. destruct ((i =? -1) || (j =? -1)) eqn:E; [eauto|]. apply orb_false_iff in E. destruct E as (E1 & E2).
  apply Z.eqb_neq in E1, E2. destruct I as [|I]; [contradiction|]. destruct J as [|J]; [contradiction|]. destruct mem; [|eexists; split; reflexivity].
  destruct (open_index_ok i j flags I J) as (cd & -> & F). exists (inl cd). split; [reflexivity|]. exists cd. auto.
Qed.

Theorem C28_open_from_name : forall mem b1 b2 from to flags, buffer b1 -> buffer b2 -> ascii_name from -> fits from -> ascii_name to -> fits to ->
  exists i j r, reiconv_lookup_from_name b1 from = Ok i /\ reiconv_lookup_from_name b2 to = Ok j /\
    reiconv_open_from_name mem b1 b2 from to flags = Ok r /\ opening mem i j flags r.
Proof.
  intros mem b1 b2 from to flags B1 B2 A1 F1 A2 F2.
  destruct (C26_lookup_safe_partial b1 from B1 A1 F1) as (i & E1 & R1). destruct (C26_lookup_safe_partial b2 to B2 A2 F2) as (j & E2 & R2).
  destruct (opening_ok mem i j flags R1 R2) as (r & E & O). exists i, j, r. split; [exact E1|]. split; [exact E2|]. split; [|exact O].
  unfold reiconv_open_from_name. rewrite E1, E2. exact E.
Qed.
Theorem C28_open_from_codepage : forall mem from to flags, 0 <= from < 65002 -> 0 <= to < 65002 ->
  exists i j r, reiconv_lookup_from_codepage from = Ok i /\ reiconv_lookup_from_codepage to = Ok j /\
    reiconv_open_from_codepage mem from to flags = Ok r /\ opening mem i j flags r.
Proof.
  intros mem from to flags H1 H2.
  assert (R : forall cp, 0 <= cp < 65002 -> exists i, reiconv_lookup_from_codepage cp = Ok i /\ (i = -1 \/ 0 <= i < Z.of_nat (List.length all_encodings))).
  { intros cp H. destruct (C27_codepage_partial cp H) as (i & E & [I|(-> & _)]); [|exists (-1); auto]. exists i. split; [exact E|]. right. now destruct (codepages_range _ _ I). }
  destruct (R from H1) as (i & E1 & R1). destruct (R to H2) as (j & E2 & R2).
  destruct (opening_ok mem i j flags R1 R2) as (r & E & O). exists i, j, r. split; [exact E1|]. split; [exact E2|]. split; [|exact O].
  unfold reiconv_open_from_codepage. rewrite E1, E2. exact E.
Qed.
Theorem C28_open_from_index : forall mem i j flags, 0 <= i < Z.of_nat (List.length all_encodings) -> 0 <= j < Z.of_nat (List.length all_encodings) ->
  exists r, reiconv_open_from_index mem i j flags = Ok r /\ (mem = false -> r = inr ENOMEM) /\ (mem = true -> exists cd, r = inl cd /\ fresh cd i j flags).
Proof.
  intros mem i j flags I J. destruct mem.
  - destruct (open_index_ok i j flags I J) as (cd & E & F). exists (inl cd). split; [exact E|]. split; [discriminate|]. eauto.
  - exists (inr ENOMEM). repeat split. discriminate.
Qed.

(** * C29 *)
(** reiconv_open uses the text before the first '/' of the canonical spellings and looks for "//IGNORE": at the
    end of fromcode, anywhere in tocode. *)
Lemma before_fits : forall n, (List.length (canon n) <= 40)%nat -> (List.length (canon (before_slash (canon n))) <= 40)%nat.
Proof. intros n H. rewrite canon_before. pose proof (before_length (canon n)). lia. Qed.
Theorem C29_open : forall mem b to from, (forall k, buffer (b k)) -> ascii_name to -> fits to -> ascii_name from -> fits from ->
  exists i j flags r, reiconv_lookup_from_name (b 2%nat) (before_slash (canon from)) = Ok i /\
    reiconv_lookup_from_name (b 3%nat) (before_slash (canon to)) = Ok j /\
    reiconv_open mem b to from = Ok r /\ opening mem i j flags r /\
    (Z.odd flags = true <-> ends_with ignore_suffix (canon from) \/ occurs ignore_suffix (canon to)).
Proof.
  intros mem b to from B A1 F1 A2 F2.
  pose proof (canon_ascii _ A1) as C1. pose proof (canon_ascii _ A2) as C2.
  destruct (C26_lookup_safe_partial (b 2%nat) (before_slash (canon from)) (B _) (before_ascii _ C2) (before_fits _ F2)) as (i & E1 & R1).
  destruct (C26_lookup_safe_partial (b 3%nat) (before_slash (canon to)) (B _) (before_ascii _ C1) (before_fits _ F1)) as (j & E2 & R2).
  set (f1 := b2z (scanb 8 (canon from))). set (fl := Z.lor f1 (b2z (scanb 7 (canon to)))).
  destruct (opening_ok mem i j fl R1 R2) as (r & E & O). exists i, j, fl, r. split; [exact E1|]. split; [exact E2|]. split; [|split; [exact O|]].
  - unfold reiconv_open. rewrite !canonicalize_ok by (rewrite B; change NAMEBUF with 41%nat; unfold fits in *; lia). cbn [bind].
    pose proof (scan_spec 8 (canon from) [] (skipn (S (List.length (canon from))) (b 0%nat)) 0 ltac:(lia) (ascii_nz _ C2) ltac:(lia)) as S1. cbn [app List.length Nat.add] in S1.
    change REICONV_NO_FLAGS with 0. rewrite S1. cbn [bind].
    pose proof (scan_spec 7 (canon to) [] (skipn (S (List.length (canon to))) (b 1%nat)) f1 ltac:(lia) (ascii_nz _ C1) ltac:(unfold f1; destruct (scanb 8 (canon from)); cbn; lia)) as S2. cbn [app List.length Nat.add] in S2.
    rewrite Z.lor_0_l. fold f1. rewrite S2. cbn [bind]. fold fl.
    rewrite cstr_deslash by now apply ascii_nz. rewrite E1. cbn [bind]. rewrite cstr_deslash by now apply ascii_nz. rewrite E2. cbn [bind]. exact E.
  - rewrite <- scanb_ends, <- scanb_occurs. unfold fl, f1. destruct (scanb 8 (canon from)), (scanb 7 (canon to)); cbn; intuition congruence.
Qed.
Example C29_example : match reiconv_open true (fun _ => junk) (codes "latin1//IGNORE") (codes "utf-8") with
  | Ok (inl cd) => (iindex cd, oindex cd, discard_ilseq cd) | _ => (0, 0, 0) end = (ei_utf8, ei_iso8859_1, 1).
Proof. vm_compute. reflexivity. Qed.
(** "//IGNORE" need not be a suffix of tocode: text after it is not looked at. *)
Example C29_not_a_suffix : match reiconv_open true (fun _ => junk) (codes "latin1//IGNOREDTEXT") (codes "utf-8") with
  | Ok (inl cd) => discard_ilseq cd | _ => 0 end = 1.
Proof. vm_compute. reflexivity. Qed.

(** * C09 *)
(** The width in bytes of the code units of the encoding with the given names. *)
Definition four_bytes : list string := ["UCS4"; "UCS4BE"; "UCS4LE"; "UCS4INTERNAL"; "UCS4SWAPPED"; "UTF32"; "UTF32BE"; "UTF32LE"]%string.
Definition two_bytes : list string := ["UCS2"; "UCS2BE"; "UCS2LE"; "UCS2INTERNAL"; "UCS2SWAPPED"; "UTF16"; "UTF16BE"; "UTF16LE"]%string.
Definition called (names among : list string) : bool := existsb (fun n => existsb (String.eqb n) among) names.
(** What is skipped when discarding is one code unit. *)
Theorem C09_skips_one_code_unit : forall cd names, In (iindex cd, names) declared_names ->
  Public.unit_of cd = if called names four_bytes then 4%nat else if called names two_bytes then 2%nat else 1%nat.
Proof.
  assert (C : forallb (fun x => Nat.eqb (Z.to_nat (ei_unit (fst x))) (if called (snd x) four_bytes then 4 else if called (snd x) two_bytes then 2 else 1)) declared_names = true)
    by (vm_compute; reflexivity).
  intros cd names I. rewrite forallb_forall in C. specialize (C _ I). now apply Nat.eqb_eq in C.
Qed.
(** All sixteen names occur. *)
Example C09_units : forallb (fun n => existsb (fun x => called (snd x) [n]) declared_names) (four_bytes ++ two_bytes) = true.
Proof. vm_compute. reflexivity. Qed.

(** * C44 *)
(** The value of an enumerator of the generated header. *)
Fixpoint enumerator (fuel : nat) (l : list (string * (Z + string))) (c : string) : option Z :=
  match fuel with
  | O => None
  | S fuel => match find (fun p => String.eqb (fst p) c) l with
    | Some (_, inl v) => Some v
    | Some (_, inr c') => enumerator fuel l c'
    | None => None
    end
  end.
Definition oeqb (x : option Z) (i : Z) : bool := match x with Some v => v =? i | None => false end.
Theorem C44_tables_agree : forall c i f, In (c, i, f) declared ->
  encoding_at i = Some f /\ enumerator 2 public_c c = Some i /\ enumerator 2 public_cpp c = Some i.
Proof.
  assert (A : forall c i f, In (c, i, f) declared -> encoding_at i = Some f).
  { assert (M : map (fun x => encoding_at (snd (fst x))) declared = map (fun x => Some (snd x)) declared) by reflexivity.
    intros c i f I. revert M I. generalize declared. induction l as [|x l IH]; intros M I; [contradiction|]. inversion M. destruct I as [->|I]; [exact H0|auto]. }
  assert (B : forallb (fun x => oeqb (enumerator 2 public_c (fst (fst x))) (snd (fst x)) && oeqb (enumerator 2 public_cpp (fst (fst x))) (snd (fst x))) declared = true)
    by (vm_compute; reflexivity).
  intros c i f I. split; [eauto|]. rewrite forallb_forall in B. specialize (B _ I). cbn [fst snd] in B. apply andb_true_iff in B. destruct B as (B1 & B2).
  unfold oeqb in B1, B2. destruct (enumerator 2 public_c c); [|discriminate]. destruct (enumerator 2 public_cpp c); [|discriminate].
  apply Z.eqb_eq in B1, B2. subst. auto.
Qed.
(** Conversely every public constant is declared, or declared as another name of a declared one. *)
Theorem C44_constants_declared : forall c v, In (c, v) public_c -> exists i f d, In (d, i, f) declared /\ enumerator 2 public_c c = Some i /\
  (d = c \/ In (c, d) declared_aliases).
Proof.
  assert (C : forallb (fun x => existsb (fun y => oeqb (enumerator 2 public_c (fst x)) (snd (fst y)) &&
     (String.eqb (fst (fst y)) (fst x) || existsb (fun a => String.eqb (fst a) (fst x) && String.eqb (snd a) (fst (fst y))) declared_aliases)) declared) public_c = true)
    by (vm_compute; reflexivity).
  intros c v I. rewrite forallb_forall in C. specialize (C _ I). cbn [fst] in C. apply existsb_exists in C. destruct C as (((d, i), f) & D & C). cbn [fst snd] in C.
  apply andb_true_iff in C. destruct C as (C1 & C2). exists i, f, d. split; [exact D|]. split.
  - unfold oeqb in C1. destruct (enumerator 2 public_c c); [|discriminate]. apply Z.eqb_eq in C1. now subst.
  - apply orb_true_iff in C2. destruct C2 as [C2|C2]; [left; now apply String.eqb_eq|right].
    apply existsb_exists in C2. destruct C2 as ((a, b) & J & C2). apply andb_true_iff in C2. cbn [fst snd] in C2. destruct C2 as (X & Y).
    apply String.eqb_eq in X, Y. now subst.
Qed.
(** The C and C++ constants are the same, every index has one, and different declared constants differ. *)
Theorem C44_c_and_cpp_agree : public_c = public_cpp \/ (List.length public_c = List.length public_cpp /\ forall c v, In (c, v) public_c -> enumerator 2 public_cpp c = enumerator 2 public_c c).
Proof.
  right. split; [reflexivity|]. intros c v I.
  assert (B : forallb (fun x => match enumerator 2 public_c (fst x), enumerator 2 public_cpp (fst x) with Some a, Some b => a =? b | _, _ => false end) public_c = true) by (vm_compute; reflexivity).
  rewrite forallb_forall in B. specialize (B _ I). cbn [fst] in B. destruct (enumerator 2 public_c c), (enumerator 2 public_cpp c); try discriminate.
  apply Z.eqb_eq in B. now subst.
Qed.
Theorem C44_every_index_declared : forall i, 0 <= i < Z.of_nat (List.length all_encodings) -> exists c f names, In (c, i, f) declared /\ In (i, names) declared_names /\ names <> [].
Proof.
  assert (U : upto 198 (fun i => existsb (fun x => snd (fst x) =? i) declared && existsb (fun x => (fst x =? i) && match snd x with [] => false | _ => true end) declared_names) = true) by (vm_compute; reflexivity).
  intros i H. pose proof (upto_sound _ _ U i H) as D. cbv beta in D. apply andb_true_iff in D. destruct D as (D1 & D2).
  apply existsb_exists in D1. destruct D1 as (((c, j), f) & D1 & E1). cbn [fst snd] in E1. apply Z.eqb_eq in E1. subst j.
  apply existsb_exists in D2. destruct D2 as ((j, names) & D2 & E2). cbn [fst snd] in E2. apply andb_true_iff in E2. destruct E2 as (E2 & E3). apply Z.eqb_eq in E2. subst j.
  exists c, f, names. split; [exact D1|]. split; [exact D2|]. destruct names; [discriminate E3|discriminate].
Qed.
Example C44_example : enumerator 2 public_c "GB18030" = Some ei_gb18030_2022 /\ reiconv_lookup_from_name junk (codes "GB18030") = Ok ei_gb18030_2022.
Proof. split; vm_compute; reflexivity. Qed.
