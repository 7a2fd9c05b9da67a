(** Properties of locale_charset: which charset it reports (C45), that on Windows it is the encoding of the code
    page (C46), that what it reports can be opened (C47). *)
From Coq Require Import ZArith List Bool String Sorted Lia.
From Verif Require Import Base Loop Encodings AliasTab PubIdx Api Names NameProps LocaleTab Locale C_names.
Import ListNotations.
Open Scope Z_scope.

(** * C45 *)
(** A variable counts as set if it has a value other than the empty string. *)
Definition is_set (v : option (list Z)) (l : list Z) : Prop := v = Some l /\ l <> [].
Definition unset (v : option (list Z)) : Prop := forall l, ~ is_set v l.
(** The locale in force: LC_ALL before LC_CTYPE before LANG before what setlocale says. *)
Definition in_force (env : string -> option (list Z)) (current : option (list Z)) (l : list Z) : Prop :=
  is_set (env "LC_ALL"%string) l \/
  (unset (env "LC_ALL"%string) /\ is_set (env "LC_CTYPE"%string) l) \/
  (unset (env "LC_ALL"%string) /\ unset (env "LC_CTYPE"%string) /\ is_set (env "LANG"%string) l) \/
  (unset (env "LC_ALL"%string) /\ unset (env "LC_CTYPE"%string) /\ unset (env "LANG"%string) /\ current = Some l).
(** The charset of a locale: what the table of the platform says; for a locale that is not in it the text behind
    its first dot; UTF-8 if there is no dot. *)
Definition in_table (l r : list Z) : Prop := exists s t, In (s, t) locale_table /\ l = codes s /\ r = codes t.
Definition behind_dot (l r : list Z) : Prop := exists before, ~ In 0x2e before /\ l = before ++ 0x2e :: r.
Definition charset_is (with_table : bool) (l r : list Z) : Prop :=
  (with_table = true /\ in_table l r) \/
  ((with_table = true -> forall r', ~ in_table l r') /\
   (behind_dot l r \/ (~ In 0x2e l /\ r = codes "UTF-8"))).

Lemma get_locale_in_force : forall env current,
  match get_locale env current with
  | Some l => in_force env current l
  | None => current = None /\ unset (env "LC_ALL"%string) /\ unset (env "LC_CTYPE"%string) /\ unset (env "LANG"%string)
  end.
Proof.
  intros env current. unfold get_locale.
  assert (S : forall v, match v with Some (c :: l) => is_set v (c :: l) | _ => unset v end).
  { intros [[|c l]|]; [intros l (H & N); congruence| |intros l (H & N); discriminate]. split; [reflexivity|discriminate]. }
  pose proof (S (env "LC_ALL"%string)) as S1. pose proof (S (env "LC_CTYPE"%string)) as S2. pose proof (S (env "LANG"%string)) as S3.
  unfold in_force.
  destruct (env "LC_ALL"%string) as [[|c1 l1]|]; cbn [is_invalid_locale]; try (left; exact S1);
  destruct (env "LC_CTYPE"%string) as [[|c2 l2]|]; cbn [is_invalid_locale]; try (right; left; split; assumption);
  destruct (env "LANG"%string) as [[|c3 l3]|]; cbn [is_invalid_locale]; try (right; right; left; repeat split; solve [assumption | apply S3]);
  (destruct current; [do 3 right|]; repeat split; assumption).
Qed.
Lemma in_force_unique : forall env current l l', in_force env current l -> in_force env current l' -> l = l'.
Proof.
  assert (U : forall v l l', is_set v l -> is_set v l' -> l = l') by (intros v l l' (A & _) (B & _); congruence).
  intros env current l l' A B. unfold in_force in A, B.
  destruct A as [A|[(A1 & A)|[(A1 & A2 & A)|(A1 & A2 & A3 & A)]]]; destruct B as [B|[(B1 & B)|[(B1 & B2 & B)|(B1 & B2 & B3 & B)]]];
    solve [ eapply U; eassumption | congruence
          | match goal with | S : is_set ?v ?l, N : unset ?v |- _ => exfalso; exact (N l S) end ].
Qed.

(** The order of the table. *)
Lemma strcmp_eq_iff : forall a b, strcmp a b = Eq <-> a = b.
Proof.
  induction a as [|c a IH]; destruct b as [|d b]; cbn; try (split; [reflexivity || discriminate|reflexivity || discriminate]).
  destruct (Z.compare_spec c d) as [->|L|L]; [rewrite IH; split; congruence| |]; split; try discriminate; intros E; inversion E; lia.
Qed.
Lemma strcmp_trans : forall a b c, strcmp a b = Lt -> strcmp b c = Lt -> strcmp a c = Lt.
Proof.
  induction a as [|x a IH]; destruct b as [|y b]; destruct c as [|z c]; cbn; try congruence.
  destruct (Z.compare_spec x y); try discriminate; destruct (Z.compare_spec y z); try discriminate; intros H1 H2;
    destruct (Z.compare_spec x z); try lia; try reflexivity. subst. eauto.
Qed.
Lemma strcmp_antisym : forall a b, strcmp a b = CompOpp (strcmp b a).
Proof.
  induction a as [|x a IH]; destruct b as [|y b]; cbn; try reflexivity. rewrite (Z.compare_antisym y x).
  destruct (y ?= x); cbn; auto.
Qed.
Fixpoint ascending (t : list (list Z * list Z)) : bool :=
  match t with
  | [] => true
  | (a, _) :: t => match t with [] => true | (b, _) :: _ => match strcmp a b with Lt => ascending t | _ => false end end
  end.
Definition below (p q : list Z * list Z) : Prop := strcmp (fst p) (fst q) = Lt.
Lemma ascending_sound : forall t, ascending t = true -> StronglySorted below t.
Proof.
  intros t H. apply Sorted_StronglySorted.
  - intros p q r. unfold below. apply strcmp_trans.
  - induction t as [|(a, x) t IH]; [constructor|]. destruct t as [|(b, y) t]; [repeat constructor|]. cbn in H.
    destruct (strcmp a b) eqn:E; try discriminate. constructor; [apply IH; exact H|]. constructor. exact E.
Qed.
Lemma sorted_nth : forall t i j p q, StronglySorted below t ->
  (i < j)%nat -> nth_error t i = Some p -> nth_error t j = Some q -> strcmp (fst p) (fst q) = Lt.
Proof.
  induction t as [|x t IH]; intros i j p q S L I J; [destruct i; discriminate|]. inversion S as [|? ? S' F]; subst.
  destruct j as [|j]; [lia|]. destruct i as [|i].
  - cbn in I, J. injection I as <-. rewrite Forall_forall in F. apply F. eapply nth_error_In; exact J.
  - cbn in I, J. apply (IH i j); auto. lia.
Qed.
Lemma search_ok : forall t locale, StronglySorted below t ->
  forall fuel lo hi, (hi - lo < fuel)%nat -> (hi <= List.length t)%nat ->
  (forall i p, (i < lo)%nat -> nth_error t i = Some p -> strcmp (fst p) locale = Lt) ->
  (forall i p, (hi <= i)%nat -> nth_error t i = Some p -> strcmp (fst p) locale = Gt) ->
  exists r, table_search fuel t locale lo hi = Ok r /\
    match r with Some c => In (locale, c) t | None => forall c, ~ In (locale, c) t end.
Proof.
  intros t locale S. induction fuel as [|fuel IH]; intros lo hi F H A B; [lia|]. cbn [table_search].
  destruct (Nat.ltb_spec lo hi) as [L|L].
  - assert (M : (lo <= Nat.div2 (hi + lo) < hi)%nat).
    { rewrite Nat.div2_div. split; [apply Nat.div_le_lower_bound; lia|apply Nat.div_lt_upper_bound; lia]. }
    set (mid := Nat.div2 (hi + lo)) in *. destruct (nth_error t mid) as [(name, canonical)|] eqn:N.
    2: { apply nth_error_None in N. lia. }
    destruct (strcmp name locale) eqn:C.
    + exists (Some canonical). split; [reflexivity|]. apply strcmp_eq_iff in C. subst. eapply nth_error_In; exact N.
    + apply IH; try lia.
      * intros i p I P. destruct (Nat.eq_dec i mid) as [->|NE]; [rewrite N in P; injection P as <-; exact C|].
        eapply strcmp_trans; [eapply (sorted_nth t i mid); eauto; lia|]. exact C.
      * exact B.
    + apply IH; try lia.
      * exact A.
      * intros i p I P. destruct (Nat.eq_dec i mid) as [->|NE]; [rewrite N in P; injection P as <-; exact C|].
        rewrite strcmp_antisym in C. rewrite strcmp_antisym. destruct (strcmp locale name) eqn:C'; try discriminate.
        rewrite (strcmp_trans locale name (fst p)); [reflexivity|exact C'|]. exact (sorted_nth t mid i (name, canonical) p S ltac:(lia) N P).
  - exists None. split; [reflexivity|]. intros c I. apply In_nth_error in I. destruct I as (i & I).
    destruct (Nat.ltb_spec i lo) as [Q|Q].
    + specialize (A i _ Q I). cbn in A. rewrite (proj2 (strcmp_eq_iff locale locale) eq_refl) in A. discriminate.
    + specialize (B i _ ltac:(lia) I). cbn in B. rewrite (proj2 (strcmp_eq_iff locale locale) eq_refl) in B. discriminate.
Qed.
Lemma table_ascending : ascending table_bytes = true.
Proof. vm_compute. reflexivity. Qed.
Lemma table_unique : forall l r r', in_table l r -> in_table l r' -> r = r'.
Proof.
  intros l r r' (s & t & I & -> & ->) (s' & t' & I' & E & ->).
  pose proof (ascending_sound _ table_ascending) as S.
  assert (J : In (codes s, codes t) table_bytes) by (apply (in_map (fun p => (codes (fst p), codes (snd p))) _ _ I)).
  assert (J' : In (codes s', codes t') table_bytes) by (apply (in_map (fun p => (codes (fst p), codes (snd p))) _ _ I')).
  apply In_nth_error in J, J'. destruct J as (i & J). destruct J' as (j & J').
  destruct (Nat.lt_trichotomy i j) as [L|[L|L]].
  - pose proof (sorted_nth _ _ _ _ _ S L J J') as C. cbn in C. rewrite E, (proj2 (strcmp_eq_iff _ _) eq_refl) in C. discriminate.
  - subst j. rewrite J in J'. now injection J' as _ ->.
  - pose proof (sorted_nth _ _ _ _ _ S L J' J) as C. cbn in C. rewrite E, (proj2 (strcmp_eq_iff _ _) eq_refl) in C. discriminate.
Qed.
Lemma table_bytes_in : forall l r, In (l, r) table_bytes <-> in_table l r.
Proof.
  intros l r. unfold table_bytes. rewrite in_map_iff. split.
  - intros ((s, t) & E & I). cbn in E. injection E as <- <-. exists s, t. auto.
  - intros (s & t & I & -> & ->). exists (s, t). auto.
Qed.
Lemma strchr_spec : forall l, match strchr l 0x2e with Some p => exists before r, p = 0x2e :: r /\ ~ In 0x2e before /\ l = before ++ p | None => ~ In 0x2e l end.
Proof.
  induction l as [|c l IH]; cbn [strchr]; [intros []|]. destruct (Z.eqb_spec c 0x2e) as [->|N].
  - exists [], l. repeat split. intros [].
  - destruct (strchr l 0x2e).
    + destruct IH as (before & r & -> & B & ->). exists (c :: before), r. repeat split. intros [E|E]; [congruence|auto].
    + intros [E|E]; [congruence|auto].
Qed.
Lemma behind_unique : forall l r r', behind_dot l r -> behind_dot l r' -> r = r'.
Proof.
  intros l r r' (b & N & ->) (b' & N' & E). revert b' N' E. induction b as [|c b IH]; intros [|c' b'] N' E; cbn in E; try congruence.
  - injection E as <- _. contradiction N'. now left.
  - injection E as -> _. contradiction N. now left.
  - injection E as -> E. apply (IH (fun X => N (or_intror X)) b' (fun X => N' (or_intror X)) E).
Qed.
Lemma charset_unique : forall w l r r', charset_is w l r -> charset_is w l r' -> r = r'.
Proof.
  assert (D : forall l r, behind_dot l r -> In 0x2e l) by (intros l r (b & _ & ->); apply in_or_app; right; now left).
  intros w l r r' [(W & T)|(T & H)] [(W' & T')|(T' & H')].
  - eapply table_unique; eauto.
  - contradiction (T' W r).
  - contradiction (T W' r').
  - destruct H as [H|(H & ->)]; destruct H' as [H'|(H' & ->)]; try reflexivity.
    + eapply behind_unique; eauto.
    + contradiction H'; eauto.
    + contradiction H; eauto.
Qed.
Lemma charset_of_locale_ok : forall w l, exists r, charset_of_locale w l = Ok r /\ charset_is w l r.
Proof.
  intros w l.
  assert (S : exists c, (if w then table_search (S (List.length table_bytes)) table_bytes l 0 (List.length table_bytes) else Ok None) = Ok c /\
    match c with Some r => w = true /\ in_table l r | None => w = true -> forall r, ~ in_table l r end).
  { destruct w; [|exists None; split; [reflexivity|discriminate]].
    destruct (search_ok table_bytes l (ascending_sound _ table_ascending) (S (List.length table_bytes)) 0 (List.length table_bytes)) as (c & E & C).
    - lia.
    - lia.
    - lia.
    - intros i p I N. assert (nth_error table_bytes i = None) by (apply nth_error_None; exact I). congruence.
    - exists c. split; [exact E|]. destruct c; [split; [reflexivity|now apply table_bytes_in]|]. intros _ r I. apply (C r). now apply table_bytes_in. }
  destruct S as (c & E & C). unfold charset_of_locale. rewrite E. cbn [bind]. destruct c as [c|].
  - exists c. split; [reflexivity|]. now left.
  - pose proof (strchr_spec l) as P. destruct (strchr l 0x2e) as [p|].
    + destruct P as (before & r & -> & B & ->). exists r. split; [reflexivity|]. right. split; [exact C|]. left. exists before. auto.
    + exists default_charset. split; [reflexivity|]. right. split; [exact C|]. right. split; [exact P|reflexivity].
Qed.

(** On a platform without nl_langinfo, with or without a table, the charset reported is that of the locale in force;
    in particular the call ends and reads nothing outside of the table. *)
Theorem C45_locale_charset : forall with_table env current l r, in_force env current l ->
  (locale_charset (environment with_table env current) = Ok r <-> charset_is with_table l r).
Proof.
  intros w env current l r F. cbn [locale_charset]. unfold locale_charset_env. pose proof (get_locale_in_force env current) as G.
  destruct (get_locale env current) as [l'|].
  - rewrite (in_force_unique _ _ _ _ F G). destruct (charset_of_locale_ok w l') as (r' & -> & C). split.
    + intros E. injection E as <-. exact C.
    + intros C'. f_equal. eapply charset_unique; eauto.
  - exfalso. destruct G as (-> & U1 & U2 & U3).
    destruct F as [F|[(F1 & F)|[(F1 & F2 & F)|(F1 & F2 & F3 & F)]]]; [exact (U1 l F)|exact (U2 l F)|exact (U3 l F)|discriminate].
Qed.
(** There always is a locale in force, as setlocale (LC_CTYPE, NULL) returns one. *)
Theorem C45_locale_charset_safe : forall with_table env current, current <> None ->
  exists l r, in_force env current l /\ locale_charset (environment with_table env current) = Ok r /\ charset_is with_table l r.
Proof.
  intros w env current N. pose proof (get_locale_in_force env current) as G. cbn [locale_charset]. unfold locale_charset_env.
  destruct (get_locale env current) as [l|]; [|destruct G; contradiction].
  destruct (charset_of_locale_ok w l) as (r & E & C). exists l, r. auto.
Qed.
Definition an_env (v : string) : option (list Z) :=
  if String.eqb v "LC_ALL" then Some [] else if String.eqb v "LC_CTYPE" then Some (codes "ru_RU.KOI8-R")
  else if String.eqb v "LANG" then Some (codes "C") else None.
Example C45_case : in_force an_env (Some (codes "C")) (codes "ru_RU.KOI8-R") /\
  locale_charset (environment true an_env (Some (codes "C"))) = Ok (codes "KOI8-R") /\
  charset_of_locale true (codes "de_DE.ISO_8859-1") = Ok (codes "ISO-8859-1") /\
  charset_of_locale true (codes "ja_JP.EUC-JP") = Ok (codes "EUC-JP") /\
  charset_of_locale true (codes "de_DE") = Ok (codes "UTF-8").
Proof.
  split.
  - right. left. split; [intros l (E & N); cbn in E; injection E as <-; contradiction|]. split; [reflexivity|discriminate].
  - repeat split; vm_compute; reflexivity.
Qed.

(** * C46 *)
(** The code pages whose name denotes another encoding or none. *)
Definition misnamed : list Z := [950; 932; 949; 1258; 38598].
(** The code pages known to the library that the switch does not list. *)
Definition not_listed : list Z := [51950; 819; 1131; 154; 1133; 856; 922; 943; 1046; 1124; 1129; 1161; 1162; 1163; 853; 1125; 273; 277;
  278; 280; 282; 284; 285; 297; 423; 424; 425; 838; 871; 880; 905; 924; 1025; 1047; 1097; 1112; 1122; 1123; 1130; 1132; 1137; 1153; 1154; 1155; 1156;
  1157; 1158; 1160; 1164; 1165; 1166; 4971; 12712; 16804].
Definition memz (x : Z) (l : list Z) : bool := existsb (Z.eqb x) l.
Lemma memz_in : forall x l, memz x l = true <-> In x l.
Proof.
  intros x l. unfold memz. rewrite existsb_exists. split.
  - intros (y & I & E). apply Z.eqb_eq in E. now subst.
  - intros I. exists x. split; [exact I|apply Z.eqb_refl].
Qed.
Definition asciib (s : list Z) : bool := forallb (fun c => (1 <=? c) && (c <? 128)) s.
Lemma asciib_sound : forall s, asciib s = true -> ascii_name s.
Proof. intros s H. apply Forall_forall. intros c I. unfold asciib in H. rewrite forallb_forall in H. specialize (H c I). lia. Qed.
Lemma ascii_cname : forall s, ascii_name s -> cname s.
Proof. intros s H. eapply Forall_impl; [|exact H]. cbn. lia. Qed.
Definition looked (s : list Z) : option Z := if asciib s then match reiconv_lookup_from_name junk s with Ok i => Some i | _ => None end else None.
Lemma looked_sound : forall buf s i, buffer buf -> looked s = Some i -> reiconv_lookup_from_name buf s = Ok i.
Proof.
  intros buf s i B H. unfold looked in H. destruct (asciib s) eqn:A; [|discriminate].
  rewrite (lookup_canon buf junk s s B junk_buffer (ascii_cname _ (asciib_sound _ A)) eq_refl).
  destruct (reiconv_lookup_from_name junk s); try discriminate. now injection H as ->.
Qed.
Definition is_some (o : option Z) (i : Z) : bool := match o with Some j => j =? i | None => false end.
Lemma declared_reported : forallb (fun p => if memz (fst p) (misnamed ++ not_listed) then negb (is_some (looked (windows_getcp (fst p))) (snd p)) &&
    match looked (windows_getcp (fst p)) with Some _ => true | None => false end
  else is_some (looked (windows_getcp (fst p))) (snd p)) declared_codepages = true.
Proof. vm_compute. reflexivity. Qed.

(** The name reported for a code page the library knows is looked up to the very encoding the library has for it. *)
Theorem C46_windows_charset_partial : forall buf cp i, buffer buf -> In (cp, i) declared_codepages ->
  ~ In cp misnamed -> ~ In cp not_listed ->
  exists name, locale_charset (windows cp) = Ok name /\ reiconv_lookup_from_name buf name = Ok i /\ reiconv_lookup_from_codepage cp = Ok i.
Proof.
  intros buf cp i B I M L. exists (windows_getcp cp). split; [reflexivity|]. split; [|now apply C27_declared_codepage].
  pose proof declared_reported as D. rewrite forallb_forall in D. specialize (D _ I). cbn [fst snd] in D.
  destruct (memz cp (misnamed ++ not_listed)) eqn:E.
  - apply memz_in, in_app_or in E. tauto.
  - apply looked_sound; [exact B|]. destruct (looked (windows_getcp cp)); [|discriminate]. apply Z.eqb_eq in D. now subst.
Qed.
(** What is missing: for these code pages the name reported denotes another encoding, or none (-1). *)
Theorem C46_refuted : forall cp, In cp misnamed \/ In cp not_listed ->
  exists i j name, In (cp, i) declared_codepages /\ i <> j /\ locale_charset (windows cp) = Ok name /\
    forall buf, buffer buf -> reiconv_lookup_from_name buf name = Ok j.
Proof.
  intros cp H. assert (M : In cp (misnamed ++ not_listed)) by (apply in_or_app; tauto).
  assert (K : forallb (fun c => existsb (fun p => fst p =? c) declared_codepages) (misnamed ++ not_listed) = true) by (vm_compute; reflexivity).
  rewrite forallb_forall in K. specialize (K cp M). apply existsb_exists in K. destruct K as ((c, i) & I & E). cbn in E. apply Z.eqb_eq in E. subst c.
  pose proof declared_reported as D. rewrite forallb_forall in D. specialize (D _ I). cbn [fst snd] in D.
  rewrite (proj2 (memz_in _ _) M) in D. destruct (looked (windows_getcp cp)) as [j|] eqn:L; [|now rewrite andb_false_r in D].
  exists i, j, (windows_getcp cp). cbn in D. rewrite andb_true_r in D. apply negb_true_iff, Z.eqb_neq in D. repeat split; auto.
  intros buf B. now apply looked_sound.
Qed.
(** A code page that the switch does not list is reported as ASCII. *)
Theorem C46_other_code_pages : forall cp, (forall s, ~ In (cp, s) windows_cases) -> locale_charset (windows cp) = Ok (codes "ASCII").
Proof.
  intros cp H. cbn [locale_charset]. unfold windows_getcp. f_equal. f_equal. revert H. induction windows_cases as [|(c, s) l IH]; intros H; [reflexivity|].
  cbn [case_in]. destruct (Z.eqb_spec c cp) as [->|N]; [contradiction (H s); now left|]. apply IH. intros t I. apply (H t). now right.
Qed.
Example C46_case : (exists i, In (1252, i) declared_codepages) /\ ~ In 1252 misnamed /\ ~ In 1252 not_listed /\ locale_charset (windows 1252) = Ok (codes "WINDOWS-1252") /\
  reiconv_lookup_from_name junk (codes "WINDOWS-1252") = reiconv_lookup_from_codepage 1252 /\
  locale_charset (windows 1258) = Ok (codes "VISCII") /\ locale_charset (windows 949) = Ok (codes "KS_C_5601-1987").
Proof.
  split; [|split; [cbv; intuition discriminate|split; [cbv; intuition discriminate|repeat split; vm_compute; reflexivity]]].
  destruct (C27_codepage_partial 1252 ltac:(lia)) as (i & E & [I|(-> & _)]); [exists i; exact I|]. vm_compute in E. discriminate.
Qed.

(** * C47 *)
(** A name is accepted if reiconv_open_from_name takes it, on either side. *)
Definition accepted (name : list Z) : Prop := exists i, 0 <= i < Z.of_nat (List.length all_encodings) /\
  forall buf, buffer buf -> reiconv_lookup_from_name buf name = Ok i.
Lemma accepted_opens : forall name other, accepted name -> accepted other -> forall b1 b2 flags, buffer b1 -> buffer b2 ->
  exists cd, reiconv_open_from_name true b1 b2 name other flags = Ok (inl cd).
Proof.
  intros name other (i & I & L) (j & J & L') b1 b2 flags B1 B2. destruct (open_index_ok i j flags I J) as (cd & E & _). exists cd.
  unfold reiconv_open_from_name. rewrite (L _ B1), (L' _ B2). cbn [bind].
  replace ((i =? -1) || (j =? -1)) with false; [exact E|]. symmetry. apply orb_false_iff. split; apply Z.eqb_neq; lia.
Qed.
Definition acceptedb (name : list Z) : bool := match looked name with Some i => (0 <=? i) && (i <? Z.of_nat (List.length all_encodings)) | None => false end.
Lemma acceptedb_sound : forall name, acceptedb name = true -> accepted name.
Proof.
  intros name H. unfold acceptedb in H. destruct (looked name) as [i|] eqn:L; [|discriminate]. exists i. split; [lia|]. intros buf B. now apply looked_sound.
Qed.
(** Every charset of the table, and the default, can be opened. *)
Theorem C47_table_charsets : forall l r, in_table l r -> accepted r.
Proof.
  intros l r (s & t & I & _ & ->). apply acceptedb_sound.
  assert (K : forallb (fun p => acceptedb (codes (snd p))) locale_table = true) by (vm_compute; reflexivity).
  rewrite forallb_forall in K. exact (K _ I).
Qed.
(** A locale whose codeset is a documented name of an encoding: what is reported is accepted and means that encoding,
    unless the table says otherwise. *)
Theorem C47_environment_partial : forall with_table env current l r, in_force env current l ->
  locale_charset (environment with_table env current) = Ok r ->
  (forall codeset, behind_dot l codeset -> cname codeset /\
     exists i names n, In (i, names) declared_names /\ In n names /\ ~ In (i, n) stale /\ canon codeset = canon (codes n)) ->
  accepted r.
Proof.
  intros w env current l r F E H. apply (C45_locale_charset w env current l r F) in E. destruct E as [(_ & T)|(_ & [D|(_ & ->)])].
  - eapply C47_table_charsets; exact T.
  - destruct (H r D) as (C & i & names & n & I & N & S & E). exists i. split.
    + assert (K : forallb (fun p => (0 <=? fst p) && (fst p <? Z.of_nat (List.length all_encodings))) declared_names = true) by (vm_compute; reflexivity).
      rewrite forallb_forall in K. specialize (K _ I). cbn [fst] in K. lia.
    + intros buf B. eapply C25_lookup_complete_partial; eauto.
  - apply acceptedb_sound. vm_compute. reflexivity.
Qed.
(** What is missing: a locale with a modifier.  The modifier is reported as part of the charset, and no such name is
    accepted. *)
Theorem C47_modifier_refuted : forall buf name, buffer buf -> ascii_name name -> fits name -> In 0x40 name ->
  reiconv_lookup_from_name buf name = Ok (-1).
Proof.
  intros buf name B A F I. destruct (C26_lookup_safe_partial buf name B A F) as (i & E & R). destruct R as [->|R]; [exact E|].
  exfalso. destruct (C25_lookup_sound buf name i B A F E) as [->|(names & n & D & N & C)]; [lia|].
  assert (K : forallb (fun p => forallb (fun n => forallb (fun c => negb (c =? 0x40)) (canon (codes n))) (snd p)) declared_names = true) by (vm_compute; reflexivity).
  rewrite forallb_forall in K. specialize (K _ D). cbn [snd] in K. rewrite forallb_forall in K. specialize (K _ N). rewrite <- C, forallb_forall in K.
  assert (J : In 0x40 (canon name)).
  { unfold canon. apply in_map_iff. exists 0x40. split; [reflexivity|]. apply filter_In. split; [exact I|reflexivity]. }
  specialize (K _ J). discriminate.
Qed.
Theorem C47_refuted : exists env current l r, in_force env current l /\ locale_charset (environment true env current) = Ok r /\ ~ accepted r.
Proof.
  exists (fun v => if String.eqb v "LANG" then Some (codes "de_DE.ISO-8859-15@euro") else None), (Some (codes "C")),
    (codes "de_DE.ISO-8859-15@euro"), (codes "ISO-8859-15@euro"). repeat split.
  - right. right. left. repeat split; try discriminate; intros l (E & N); discriminate.
  - intros (i & R & H). specialize (H junk junk_buffer). rewrite (C47_modifier_refuted junk _ junk_buffer) in H.
    + injection H as <-. lia.
    + apply asciib_sound. vm_compute. reflexivity.
    + unfold fits. vm_compute. lia.
    + vm_compute. tauto.
Qed.
(** The code pages for which Windows programs get a name that cannot be opened.  The sources say "We don't support it
    yet" for all of them but 20949 and 38598. *)
Definition unsupported : list Z := [10002; 10008; 20000; 20002; 20936; 10001; 20290; 10003; 20833; 20949; 720; 20001; 20003; 20004; 20005; 20105;
  20106; 20107; 20108; 20127; 20261; 20269; 20420; 29001; 38598; 57002; 57003; 57004; 57005; 57006; 57007; 57008; 57009; 57010; 57011].
Theorem C47_windows_names : forall cp, exists name, locale_charset (windows cp) = Ok name /\ (accepted name <-> ~ In cp unsupported).
Proof.
  intros cp. exists (windows_getcp cp). split; [reflexivity|].
  assert (K : forallb (fun p => if memz (fst p) unsupported then is_some (looked (windows_getcp (fst p))) (-1) else acceptedb (windows_getcp (fst p))) windows_cases = true) by (vm_compute; reflexivity).
  assert (U : forallb (fun c => memz c (map fst windows_cases)) unsupported = true) by (vm_compute; reflexivity).
  rewrite forallb_forall in K, U. destruct (memz cp (map fst windows_cases)) eqn:L.
  - apply memz_in, in_map_iff in L. destruct L as ((c, s) & <- & I). specialize (K _ I). cbn [fst] in *. destruct (memz c unsupported) eqn:M.
    + apply memz_in in M. split; [|tauto]. intros (i & R & H). specialize (H junk junk_buffer). destruct (looked (windows_getcp c)) as [j|] eqn:J; [|discriminate].
      apply Z.eqb_eq in K. subst j. rewrite (looked_sound junk _ _ junk_buffer J) in H. injection H as <-. lia.
    + split; [|intros _; now apply acceptedb_sound]. intros _ M'. apply memz_in in M'. congruence.
  - assert (E : locale_charset (windows cp) = Ok (codes "ASCII")).
    { apply C46_other_code_pages. intros s I. assert (memz cp (map fst windows_cases) = true); [|congruence]. apply memz_in, in_map_iff. exists (cp, s). auto. }
    cbn [locale_charset] in E. injection E as ->. split.
    + intros _ M. specialize (U _ M). congruence.
    + intros _. apply acceptedb_sound. vm_compute. reflexivity.
Qed.
(** What is reported where the charset always is UTF-8. *)
Theorem C47_always_utf8 : exists name, locale_charset always_utf8 = Ok name /\ accepted name.
Proof. exists (codes "UTF-8"). split; [reflexivity|]. apply acceptedb_sound. vm_compute. reflexivity. Qed.
(** The charset of a Windows code page or of a locale of the table can be opened together with UTF-8. *)
Example C47_case : accepted (windows_getcp 1252) /\ in_table (codes "ru_RU.KOI8-R") (codes "KOI8-R") /\
  behind_dot (codes "ja_JP.eucJP") (codes "eucJP") /\ canon (codes "eucJP") = canon (codes "EUCJP") /\ (exists i names, In (i, names) declared_names /\ In "EUCJP"%string names /\ ~ In (i, "EUCJP"%string) stale).
Proof.
  split; [apply acceptedb_sound; vm_compute; reflexivity|]. split; [exists "ru_RU.KOI8-R"%string, "KOI8-R"%string; repeat split; vm_compute; tauto|].
  split; [exists (codes "ja_JP"); split; [vm_compute; intuition discriminate|reflexivity]|]. split; [reflexivity|].
  exists 21. assert (K : existsb (fun p => (fst p =? 21) && existsb (String.eqb "EUCJP") (snd p)) declared_names = true) by (vm_compute; reflexivity).
  apply existsb_exists in K. destruct K as ((j, names) & I & K). apply andb_true_iff in K. destruct K as (K1 & K2). cbn [fst snd] in K1, K2. apply Z.eqb_eq in K1. subst j.
  exists names. split; [exact I|]. apply existsb_exists in K2. destruct K2 as (m & M1 & M2). apply String.eqb_eq in M2. subst m.
  split; [exact M1|]. cbv. intuition discriminate.
Qed.
