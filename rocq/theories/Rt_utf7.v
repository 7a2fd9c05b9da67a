(** UTF-7: reading back what was written. *)
From Coq Require Import ZArith List Bool Lia.
From Verif Require Import Base Loop Contract LoopLib Conv_uni Encodings Spec Rng Sx EncLib Ok_utf7e Ok_utf7d.
Import ListNotations.
Open Scope Z_scope.
Ltac Zify.zify_post_hook ::= idtac.

(** ** One sixteen-bit unit on the reading side *)
(** With p pending bits on the writing side the reader, having taken the digit that contains them, holds the first 6 - p bits of the unit u. *)
Definition lead (p u : Z) : Z := if p =? 0 then 0 else if p =? 2 then u / 4096 else u / 16384.
Definition lbits (p : Z) : Z := if p =? 0 then 0 else 6 - p.
(** The digits of the rest of u; the last one is filled with e, the start of what follows. *)
Definition rest16 (p u e : Z) : list Z :=
  if p =? 0 then [u / 1024; u / 16 mod 64; (u mod 16) * 4 + e]
  else if p =? 2 then [u / 64 mod 64; u mod 64]
  else [u / 256 mod 64; u / 4 mod 64; (u mod 4) * 16 + e].
Definition next_p (p : Z) : Z := if p =? 0 then 4 else if p =? 2 then 0 else 2.
Definition p_ok (p : Z) : Prop := p = 0 \/ p = 2 \/ p = 4.
Definition lead_ok (p e : Z) : Prop := (p = 0 /\ e = 0) \/ (p = 2 /\ 0 <= e < 16) \/ (p = 4 /\ 0 <= e < 4).

Definition fin (s : list Z) (bc : nat) (p d k kmax wc : Z) : gres :=
  if (kmax =? 2) && high wc then gather s bc p d k 4 wc
  else if kmax =? 4 then
    if low (wc mod 65536) then GChar bc (65536 + (wc / 65536 - 55296) * 1024 + (wc mod 65536 - 56320)) p d else GIll
  else GChar bc wc p d.
Lemma gather_digit : forall i t bc p d k kmax wc, 0 <= i < 64 ->
  gather (b64 i :: t) bc p d k kmax wc =
  let '(p, d, k, wc) := gstep p d k wc i in if k =? kmax then fin t (S bc) p d k kmax wc else gather t (S bc) p d k kmax wc.
Proof.
  intros i t bc p d k kmax wc I. cbn [gather]. rewrite of_b64_b64 by exact I. destruct (gstep p d k wc i) as [[[p' d'] k'] wc']. reflexivity.
Qed.
Lemma lead_range : forall p u, p_ok p -> 0 <= u < 65536 -> lead_ok p (lead p u).
Proof. intros p u [->|[->| ->]] U; unfold lead, lead_ok; cbn [Z.eqb Pos.eqb]; eucl. Qed.
Ltac dec0 := match goal with |- context [if ?a =? 0 then _ else _] => let v := eval vm_compute in (a =? 0) in change (a =? 0) with v; cbv iota beta end.
Lemma gather_unit : forall p u e t bc k kmax wc, p_ok p -> 0 <= u < 65536 -> lead_ok (next_p p) e -> kmax = k + 2 ->
  gather (map b64 (rest16 p u e) ++ t) bc (lbits p) (lead p u) k kmax wc =
  fin t (bc + length (rest16 p u e)) (lbits (next_p p)) e (k + 2) kmax (wc * 65536 + u).
Proof.
  intros p u e t bc k kmax wc P U E ->. unfold lead_ok, next_p in E.
  assert (S0 : (k =? k + 2) = false) by (apply Z.eqb_neq; lia). assert (S1 : (k + 1 =? k + 2) = false) by (apply Z.eqb_neq; lia).
  destruct P as [->|[->| ->]]; unfold rest16, lbits, lead, next_p; cbn [Z.eqb Pos.eqb] in *; cbn [map app length Z.sub Z.add Z.opp Z.pos_sub Pos.pred_double Pos.add].
  - assert (e0 : 0 <= e < 4) by lia. clear E.
    rewrite gather_digit by eucl. unfold gstep. dec0. rewrite S0.
    rewrite gather_digit by eucl. unfold gstep. dec0. rewrite S1.
    rewrite gather_digit by eucl. unfold gstep. dec0.
    replace (k + 1 + 1) with (k + 2) by lia. rewrite Z.eqb_refl. pows. f_equal; try lia; eucl.
  - assert (e0 : e = 0) by lia. clear E.
    rewrite gather_digit by eucl. unfold gstep. dec0. rewrite S1.
    rewrite gather_digit by eucl. unfold gstep. dec0.
    replace (k + 1 + 1) with (k + 2) by lia. rewrite Z.eqb_refl. pows. f_equal; try lia; eucl.
  - assert (e0 : 0 <= e < 16) by lia. clear E.
    rewrite gather_digit by eucl. unfold gstep. dec0. rewrite S1.
    rewrite gather_digit by eucl. unfold gstep. dec0. rewrite S1.
    rewrite gather_digit by eucl. unfold gstep. dec0.
    replace (k + 1 + 1) with (k + 2) by lia. rewrite Z.eqb_refl. pows. f_equal; try lia; eucl.
Qed.

(** ** The digits written *)
(** The digit made of the pending bits and the lead of what follows. *)
Definition edge (p d e : Z) : list Z := if p =? 0 then [] else [d * 2 ^ (6 - p) + e].
Ltac gopen := unfold groups, left_over;
  repeat match goal with
  | |- context [Z.to_nat (?a / 6)] => let q := eval vm_compute in (Z.to_nat (a / 6)) in change (Z.to_nat (a / 6)) with q
  | |- context [2 ^ ((?a + ?b) mod 6)] => let r := eval vm_compute in ((a + b) mod 6) in change ((a + b) mod 6) with r
  end;
  repeat match goal with |- context [(?a + ?b) mod 6] => let r := eval vm_compute in ((a + b) mod 6) in change ((a + b) mod 6) with r end;
  cbn [sextets]; unfold edge, rest16, next_p, lead; cbn [Z.eqb Pos.eqb]; pows; cbn [app].
Ltac same := repeat match goal with |- _ :: _ = _ :: _ => apply f_equal2; [try reflexivity; try eucl|] end; try reflexivity.
Lemma groups16 : forall p d u e, pend_ok p d -> 0 <= u < 65536 ->
  groups p d 16 u ++ edge (next_p p) (left_over p d 16 u) e = edge p d (lead p u) ++ rest16 p u e /\ (p + 16) mod 6 = next_p p.
Proof.
  intros p d u e P U. destruct P as [(-> & ->)|[(-> & D)|(-> & D)]]; (split; [|reflexivity]); gopen; same.
Qed.
Lemma groups32 : forall p d u v e, pend_ok p d -> 0 <= u < 65536 -> 0 <= v < 65536 ->
  groups p d 32 (u * 65536 + v) ++ edge (next_p (next_p p)) (left_over p d 32 (u * 65536 + v)) e =
  edge p d (lead p u) ++ rest16 p u (lead (next_p p) v) ++ rest16 (next_p p) v e /\ (p + 32) mod 6 = next_p (next_p p).
Proof.
  intros p d u v e P U V. destruct P as [(-> & ->)|[(-> & D)|(-> & D)]]; (split; [|reflexivity]); gopen; same.
Qed.
(** The bits of wc that are in the digit before. *)
Definition first_unit (wc : Z) : Z := if wc <? 65536 then wc else 55296 + (wc - 65536) / 1024.
Definition second_unit (wc : Z) : Z := 56320 + (wc - 65536) mod 1024.
Definition wide (wc : Z) : bool := negb (wc <? 65536).
Definition after (p wc : Z) : Z := if wide wc then next_p (next_p p) else next_p p.
Definition rest_of (p wc e : Z) : list Z :=
  if wide wc then rest16 p (first_unit wc) (lead (next_p p) (second_unit wc)) ++ rest16 (next_p p) (second_unit wc) e else rest16 p wc e.
Definition scalar7 (wc : Z) : Prop := 0 <= wc < 55296 \/ 57344 <= wc < 1114112.
Lemma next_ok : forall p, p_ok p -> p_ok (next_p p).
Proof. intros p [->|[->| ->]]; unfold next_p, p_ok; cbn; auto. Qed.
Lemma gather_char : forall p wc e t, p_ok p -> scalar7 wc -> lead_ok (after p wc) e ->
  gather (map b64 (rest_of p wc e) ++ t) 0 (lbits p) (lead p (first_unit wc)) 0 2 0 =
  GChar (length (rest_of p wc e)) wc (lbits (after p wc)) e.
Proof.
  intros p wc e t P S E. unfold rest_of, after, first_unit, wide, scalar7 in *. destruct (Z.ltb_spec wc 65536) as [L|L]; cbn [negb] in *.
  - rewrite gather_unit by (auto; lia). unfold fin. change (2 =? 2) with true. change (2 =? 4) with false.
    assert (H : high (0 * 65536 + wc) = false) by (unfold high; apply andb_false_iff; rewrite Z.leb_gt, Z.ltb_ge; lia).
    rewrite H. cbn [andb Nat.add]. f_equal; lia.
  - assert (A : 0 <= (wc - 65536) / 1024 < 1024) by eucl. assert (B : 0 <= (wc - 65536) mod 1024 < 1024) by (apply Z.mod_pos_bound; lia).
    assert (C : wc - 65536 = 1024 * ((wc - 65536) / 1024) + (wc - 65536) mod 1024) by (apply Z.div_mod; lia).
    unfold second_unit. set (a := (wc - 65536) / 1024) in *. set (b := (wc - 65536) mod 1024) in *. clearbody a b.
    rewrite map_app, <- app_assoc. rewrite gather_unit; [|exact P|lia|apply lead_range; [now apply next_ok|lia]|reflexivity].
    unfold fin at 1. change (2 =? 2) with true.
    assert (H : high (0 * 65536 + (55296 + a)) = true) by (unfold high; apply andb_true_iff; rewrite Z.leb_le, Z.ltb_lt; lia).
    rewrite H. cbn [andb Nat.add]. rewrite gather_unit; [|now apply next_ok|lia|exact E|reflexivity].
    unfold fin. change (4 =? 2) with false. change (4 =? 4) with true. cbn [andb].
    assert (X : ((0 * 65536 + (55296 + a)) * 65536 + (56320 + b)) mod 65536 = 56320 + b) by eucl.
    assert (Y : ((0 * 65536 + (55296 + a)) * 65536 + (56320 + b)) / 65536 = 55296 + a) by eucl.
    rewrite X, Y. assert (Q : low (56320 + b) = true) by (unfold low; apply andb_true_iff; rewrite Z.leb_le, Z.ltb_lt; lia).
    rewrite Q. f_equal; [rewrite app_length; reflexivity|lia].
Qed.
Lemma b64_of_eq : forall p d wc, pend_ok p d -> scalar7 wc -> exists bs d', b64_of p d wc = Some (bs, (after p wc, d')) /\ pend_ok (after p wc) d' /\
  forall e, bs ++ map b64 (edge (after p wc) d' e) = map b64 (edge p d (lead p (first_unit wc)) ++ rest_of p wc e).
Proof.
  intros p d wc P S. unfold b64_of, units, after, rest_of, wide, first_unit, scalar7 in *. destruct (Z.ltb_spec wc 65536) as [L|L]; cbn [negb].
  - destruct (groups16 p d wc 0 P) as (_ & N); [lia|]. pose proof (pend_next p d 16 wc P (or_introl eq_refl)) as Q. rewrite N in *.
    do 2 eexists. split; [reflexivity|]. split; [exact Q|]. intros e. rewrite <- map_app. f_equal. apply groups16; [exact P|lia].
  - destruct (Z.ltb_spec wc 1114112); [|lia]. fold (second_unit wc).
    assert (A : 0 <= (wc - 65536) / 1024 < 1024) by eucl. assert (B : 0 <= (wc - 65536) mod 1024 < 1024) by (apply Z.mod_pos_bound; lia).
    destruct (groups32 p d (55296 + (wc - 65536) / 1024) (second_unit wc) 0 P) as (_ & N); [lia|unfold second_unit; lia|].
    pose proof (pend_next p d 32 ((55296 + (wc - 65536) / 1024) * 65536 + second_unit wc) P (or_intror eq_refl)) as Q. rewrite N in *.
    do 2 eexists. split; [reflexivity|]. split; [exact Q|]. intros e. rewrite <- map_app. f_equal. apply groups32; [exact P|lia|unfold second_unit; lia].
Qed.

(** ** Texts *)
Fixpoint encs (m : mode) (cs : list Z) : option (list Z * mode) :=
  match cs with
  | [] => Some ([], m)
  | wc :: cs => match enc7 m wc with
    | Some (bs, m1) => match encs m1 cs with Some (out, m2) => Some (bs ++ out, m2) | None => None end
    | None => None
    end
  end.
(** The lead of a text in base64: nothing if base64 ends here. *)
Definition lead_of (p : Z) (cs : list Z) : Z := match cs with wc :: _ => if direct wc then 0 else lead p (first_unit wc) | [] => 0 end.
Lemma ascii_facts : forall c, 0 <= c < 128 -> (direct c = true -> xdirect c = true /\ (xbase64 c = false -> of_b64 c = None /\ c <> 45)) /\ b64 0 <> 45.
Proof.
  intros c H. assert (X : (if direct c then xdirect c && (xbase64 c || (match of_b64 c with None => true | _ => false end) && negb (c =? 45)) else true) = true).
  { apply (sweep 128 (fun c => if direct c then xdirect c && (xbase64 c || (match of_b64 c with None => true | _ => false end) && negb (c =? 45)) else true)); [vm_compute; reflexivity|lia]. }
  split; [|discriminate]. intros D. rewrite D in X. apply andb_prop in X. destruct X as (X & Y). split; [exact X|]. intros B. rewrite B in Y. cbn [orb] in Y.
  apply andb_prop in Y. destruct Y as (Y & Q). destruct (of_b64 c); [discriminate|]. split; [reflexivity|]. apply negb_true_iff in Q. now apply Z.eqb_neq.
Qed.
Lemma b64_not_minus : forall i, 0 <= i < 64 -> b64 i <> 45.
Proof. intros i H E. pose proof (of_b64_b64 i H) as X. rewrite E in X. discriminate X. Qed.
(** One step of reading. *)
Inductive goes : mode -> list Z -> list Z -> mode -> Prop :=
| goes_end m : goes m [] [] m
| goes_char m s k wc m1 cs m2 : (1 <= k)%nat -> s <> [] -> dmode_ok m1 -> dec7 m s = DChar k wc (dstate m1, 0) -> goes m1 (skipn k s) cs m2 -> goes m s (wc :: cs) m2
| goes_shift m s k m1 cs m2 : s <> [] -> dmode_ok m1 -> dec7 m s = DFew (S k) (dstate m1, 0) -> goes m1 (skipn (S k) s) cs m2 -> goes m s cs m2.
Lemma p_of : forall p d, pend_ok p d -> p_ok p.
Proof. intros p d [(-> & _)|[(-> & _)|(-> & _)]]; unfold p_ok; auto. Qed.
Lemma left_of : forall p e, lead_ok p e -> left_ok (lbits p) e.
Proof. intros p e [(-> & ->)|[(-> & H)|(-> & H)]]; unfold left_ok, lbits; cbn; lia. Qed.
Lemma rest_of_split : forall p wc e, p_ok p -> scalar7 wc -> lead_ok (after p wc) e ->
  exists i l, rest_of p wc e = i :: l /\ 0 <= i < 64.
Proof.
  intros p wc e P S E. unfold rest_of, scalar7 in *.
  assert (G : forall u e', 0 <= u < 65536 -> lead_ok (next_p p) e' -> exists i l, rest16 p u e' = i :: l /\ 0 <= i < 64).
  { intros u e' U E'. unfold rest16, lead_ok, next_p in *. destruct P as [->|[->| ->]]; cbn [Z.eqb Pos.eqb] in *; do 2 eexists; (split; [reflexivity|eucl]). }
  unfold after, wide in *. destruct (Z.ltb_spec wc 65536); cbn [negb] in *.
  - apply G; [lia|exact E].
  - assert (A : 0 <= (wc - 65536) / 1024 < 1024) by eucl. assert (B : 0 <= (wc - 65536) mod 1024 < 1024) by (apply Z.mod_pos_bound; lia).
    unfold first_unit. destruct (Z.ltb_spec wc 65536); [lia|].
    destruct (G (55296 + (wc - 65536) / 1024) (lead (next_p p) (second_unit wc))) as (i & l & X & Y); [lia|apply lead_range; [now apply next_ok|unfold second_unit; lia]|].
    rewrite X. cbn [app]. eauto.
Qed.
Lemma lead_of_ok : forall p cs, p_ok p -> Forall scalar7 cs -> lead_ok p (lead_of p cs).
Proof.
  intros p cs P F. assert (Z0 : lead_ok p 0) by (destruct P as [->|[->| ->]]; unfold lead_ok; lia).
  destruct cs as [|wc cs]; cbn; [exact Z0|]. destruct (direct wc); [exact Z0|]. inversion F; subst. apply lead_range; [exact P|].
  unfold first_unit, scalar7 in *. destruct (Z.ltb_spec wc 65536); [lia|]. eucl.
Qed.
Lemma fill_edge : forall p d, fill p d = map b64 (edge p d 0).
Proof. intros p d. unfold fill, edge. destruct (p =? 0); cbn; [reflexivity|]. now rewrite Z.add_0_r. Qed.
(** The text after the edge digit. *)
Theorem back : forall cs, Forall scalar7 cs ->
  (forall out m, encs None cs = Some (out, m) -> goes None (out ++ close7 m) cs None) /\
  (forall p d out m, pend_ok p d -> encs (Some (p, d)) cs = Some (out, m) ->
     exists t, out ++ close7 m = map b64 (edge p d (lead_of p cs)) ++ t /\ goes (Some (lbits p, lead_of p cs)) t cs None).
Proof.
  induction cs as [|wc cs IH]; intros F.
  - split.
    + intros out m E. cbn in E. injection E as <- <-. cbn. constructor.
    + intros p d out m P E. cbn in E. injection E as <- <-. exists [45]. split; [cbn [app close7 lead_of]; now rewrite fill_edge|].
      apply goes_shift with (k := 0%nat) (m1 := None); [discriminate|exact I| |constructor]. reflexivity.
  - inversion F as [|? ? S F']; subst. destruct (IH F') as (A & B). clear IH.
    assert (S0 : 0 <= wc) by (unfold scalar7 in S; lia).
    (* base64 *)
    assert (G : forall p d out m, pend_ok p d -> direct wc = false ->
      (match b64_of p d wc with Some (bs, q) => match encs (Some q) cs with Some (out, m2) => Some (bs ++ out, m2) | None => None end | None => None end) = Some (out, m) ->
      exists t n, out ++ close7 m = map b64 (edge p d (lead p (first_unit wc))) ++ t /\
        (1 <= n)%nat /\ t <> [] /\ (exists i t', 0 <= i < 64 /\ t = b64 i :: t') /\
        exists m1, dmode_ok m1 /\ base7 (lbits p) (lead p (first_unit wc)) t = DChar n wc (dstate m1, 0) /\ goes m1 (skipn n t) cs None).
    { intros p d out m P D E. destruct (b64_of_eq p d wc P S) as (bs & d' & E1 & P' & E2). rewrite E1 in E.
      destruct (encs (Some (after p wc, d')) cs) as [[o m2]|] eqn:E3; [|discriminate]. injection E as <- <-.
      destruct (B _ _ _ _ P' E3) as (t & T1 & T2). set (e := lead_of (after p wc) cs) in *.
      assert (LE : lead_ok (after p wc) e) by (apply lead_of_ok; [exact (p_of _ _ P')|exact F']).
      exists (map b64 (rest_of p wc e) ++ t), (length (rest_of p wc e)).
      destruct (rest_of_split p wc e (p_of _ _ P) S LE) as (i & l & R1 & R2).
      split; [|split; [|split; [|split]]].
      - rewrite <- app_assoc, T1. rewrite !app_assoc, E2, map_app. reflexivity.
      - rewrite R1. cbn. lia.
      - rewrite R1. discriminate.
      - exists i, (map b64 l ++ t). split; [exact R2|]. rewrite R1. reflexivity.
      - exists (Some (lbits (after p wc), e)). split; [cbn; now apply left_of|]. unfold base7. rewrite gather_char by (auto; exact (p_of _ _ P)).
        split; [reflexivity|]. replace (length (rest_of p wc e)) with (length (map b64 (rest_of p wc e))) by apply map_length.
        rewrite skipn_app, skipn_all, Nat.sub_diag. exact T2. }
    split.
    + intros out m E. cbn [encs enc7] in E. destruct (direct wc) eqn:D.
      * destruct (encs None cs) as [[o m2]|] eqn:E1; [|discriminate]. injection E as <- <-. destruct (ascii_facts wc (direct_byte wc S0 D)) as (Q & _). destruct (Q D) as (X & _).
        cbn [app]. apply goes_char with (k := 1%nat) (m1 := None); [lia|discriminate|exact I| |cbn [skipn]; now apply A]. cbn [dec7 plain7]. rewrite X. reflexivity.
      * destruct (Z.eqb_spec wc 43) as [->|N].
        -- destruct (encs None cs) as [[o m2]|] eqn:E1; [|discriminate]. injection E as <- <-.
           cbn [app]. apply goes_char with (k := 2%nat) (m1 := None); [lia|discriminate|exact I|reflexivity|cbn [skipn]; now apply A].
        -- assert (P0 : pend_ok 0 0) by (left; auto).
           destruct (b64_of 0 0 wc) as [[bs q]|] eqn:E1; [|discriminate]. destruct (encs (Some q) cs) as [[o m2]|] eqn:E2; [|discriminate]. injection E as <- <-.
           destruct (G 0 0 (bs ++ o) m2 P0 ltac:(auto)) as (t & n & T1 & T2 & T3 & (i & t' & T4 & T5) & m1 & T6 & T7 & T8); [rewrite E1, E2; reflexivity|].
           cbn [app]. rewrite T1. cbn [edge Z.eqb map app]. rewrite T5 in *. clear T1.
           apply goes_char with (k := Datatypes.S n) (m1 := m1); [lia|discriminate|exact T6| |exact T8].
           cbn [dec7 plain7]. change (xdirect 43) with false. change (43 =? 43) with true. cbv iota. destruct (Z.eqb_spec (b64 i) 45) as [M|M]; [contradiction (b64_not_minus i T4 M)|].
           rewrite of_b64_b64 by exact T4. change (lbits 0) with 0 in T7. change (lead 0 (first_unit wc)) with 0 in T7. rewrite T7. reflexivity.
    + intros p d out m P E. cbn [encs enc7] in E. cbn [lead_of]. destruct (direct wc) eqn:D.
      * destruct (encs None cs) as [[o m2]|] eqn:E1; [|discriminate]. injection E as <- <-. destruct (ascii_facts wc (direct_byte wc S0 D)) as (Q & _). destruct (Q D) as (X & Y).
        exists ((if xbase64 wc then [45] else []) ++ [wc] ++ o ++ close7 m2). split; [rewrite fill_edge, <- !app_assoc; reflexivity|].
        destruct (xbase64 wc) eqn:XB; cbn [app].
        -- apply goes_char with (k := 2%nat) (m1 := None); [lia|discriminate|exact I| |cbn [skipn]; now apply A]. cbn [dec7]. change (of_b64 45) with (@None Z). change (0 =? 0) with true. change (45 =? 45) with true. cbn [plain7]. rewrite X. reflexivity.
        -- destruct (Y eq_refl) as (Y1 & Y2). apply goes_char with (k := 1%nat) (m1 := None); [lia|discriminate|exact I| |cbn [skipn]; now apply A]. cbn [dec7]. rewrite Y1. change (0 =? 0) with true. apply Z.eqb_neq in Y2. rewrite Y2.
           unfold plain1. rewrite X. reflexivity.
      * destruct (b64_of p d wc) as [[bs q]|] eqn:E1; [|discriminate].
        destruct (encs (Some q) cs) as [[o m2]|] eqn:E2; [|discriminate]. injection E as <- <-.
        destruct (G p d (bs ++ o) m2 P ltac:(auto)) as (t & n & T1 & T2 & T3 & (i & t' & T4 & T5) & m1 & T6 & T7 & T8); [rewrite E1, E2; reflexivity|].
        exists t. split; [exact T1|]. apply goes_char with (k := n) (m1 := m1); [exact T2|exact T3|exact T6| |exact T8].
        rewrite T5 in *. cbn [dec7]. rewrite of_b64_b64 by exact T4. exact T7.
Qed.
