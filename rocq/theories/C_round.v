(** Properties C32-C35, C38: texts in encodings with states or escapes read back as what was written. *)
From Coq Require Import ZArith List Bool Lia.
From Verif Require Import Base Indexes Loop Contract LoopLib LoopProps Spec SpecProps Encodings Api AllOk Public Demo UniSpec UniProps C_iconv C_api C_uni Whole C_comb
  Leaf Ok_utf7e Ok_utf7d Rt_utf7 Round.
Import ListNotations.
Open Scope Z_scope.

(** * C34: UTF-7 *)
Lemma scalar_7 : forall c, scalar c = true -> scalar7 c.
Proof. intros c S. unfold scalar, scalar7 in *. lia. Qed.
Lemma emits_encs : forall cs m out o, mode_ok m -> Forall (fun c => scalar c = true) cs -> emits enc_utf7 cs (word m) = Some (out, o) ->
  exists m', mode_ok m' /\ o = word m' /\ encs m cs = Some (out, m').
Proof.
  induction cs as [|c cs IH]; cbn [emits encs]; intros m out o M S E; [inversion E; eauto|].
  inversion S as [|? ? S1 S2]; subst. assert (U : ucs4 c) by (unfold scalar, ucs4 in *; lia).
  destruct (enc7_at m c M U) as (need & N & X). rewrite (emit_at enc_utf7 1 (le_n 1) _ _ _ _ X N) in E.
  destruct (enc7 m c) as [[bs m1]|] eqn:E7; [|discriminate].
  destruct (emits enc_utf7 cs (word m1)) as [[out1 o1]|] eqn:E1; [|discriminate]. inversion E; subst.
  destruct (enc7_ok m c bs m1 M U E7) as (_ & _ & M1).
  destruct (IH m1 out1 o M1 S2 E1) as (m' & A & B & C). exists m'. rewrite C. auto.
Qed.
Lemma closing7 : forall m, mode_ok m -> closing enc_utf7 (word m) = close7 m.
Proof.
  intros m M. unfold closing. cbv [f_reset enc_utf7]. rewrite reset7_at by exact M. destruct (close7_ok m M) as (A & B).
  destruct (Nat.ltb_spec 16 (length (close7 m))); [lia|]. rewrite Nat2Z.id. apply writes_bytes, logof_writes; exact A.
Qed.
Lemma goes_reads : forall m s cs m', goes m s cs m' -> dmode_ok m -> bytes s -> Z.of_nat (length s) <= LIM -> forall u skip,
  reads enc_utf7 u skip s (dstate m, 0) cs AtEnd [] (dstate m', 0).
Proof.
  intros m s cs m' G. induction G; intros M B L u skip.
  - constructor.
  - eapply reads_char; [assumption|rewrite dec7_eq by assumption; f_equal; eassumption|]. apply IHG; auto; [now apply Forall_skipn|rewrite skipn_length; lia].
  - eapply reads_shift; [assumption|rewrite dec7_eq by assumption; f_equal; eassumption|]. apply IHG; auto; [now apply Forall_skipn|rewrite skipn_length; lia].
Qed.
Lemma enc7_total : forall m c, mode_ok m -> scalar7 c -> enc7 m c <> None.
Proof.
  intros [[p d]|] c M S; cbn [enc7 mode_ok] in *; destruct (direct c); try discriminate; [|destruct (c =? 43); [discriminate|]].
  - destruct (b64_of_eq p d c M S) as (bs & d' & -> & _). discriminate.
  - destruct (b64_of_eq 0 0 c ltac:(left; auto) S) as (bs & d' & -> & _). discriminate.
Qed.
Lemma utf7_carries : carries enc_utf7 (fun c => scalar c = true).
Proof.
  intros skip skip' u cs out o C W B L.
  apply (lossless enc_utf7 (fun c => scalar c = true) (fun o => exists m, mode_ok m /\ o = word m)) in W.
  2:{ intros c o1 Pc (m & M & ->) _. assert (U : ucs4 c) by (unfold scalar, ucs4 in *; lia). destruct (enc7_at m c M U) as (need & N & X).
      rewrite (emit_at enc_utf7 1 (le_n 1) _ _ _ _ X N). destruct (enc7 m c) as [[bs m1]|] eqn:E7; [discriminate|]. exfalso. revert E7. apply enc7_total; [exact M|now apply scalar_7]. }
  2:{ intros c o1 bs o2 Pc (m & M & ->) E. assert (U : ucs4 c) by (unfold scalar, ucs4 in *; lia). destruct (enc7_at m c M U) as (need & N & X).
      rewrite (emit_at enc_utf7 1 (le_n 1) _ _ _ _ X N) in E. destruct (enc7 m c) as [[b m1]|] eqn:E7; inversion E; subst. exists m1. split; [|reflexivity]. now apply (enc7_ok m c bs m1). }
  2:{ exact C. }
  2:{ exists None. split; [exact I|reflexivity]. }
  change 0 with (word None) in W. destruct (emits_encs cs None out o I C W) as (m & M & -> & E). rewrite closing7 in * by exact M.
  assert (S7 : Forall scalar7 cs) by (eapply Forall_impl; [|exact C]; apply scalar_7).
  pose proof (proj1 (back cs S7) out m E) as G. exists cs, (0, 0). split; [|apply app_nil_r].
  exact (goes_reads _ _ _ _ G I B L u skip').
Qed.
(** A text in any encoding that converts to UTF-8 without loss (only Unicode scalar values) and was converted to UTF-7: converting the UTF-7
    text to any encoding gives what converting the original does. *)
Theorem C34_utf7_reads_back : forall a b flags s u v out n, source a -> target b -> input s -> input u ->
  whole (opened a ei_utf8 flags) s v 0 -> whole (opened a ei_utf7 flags) s u 0 ->
  (whole (opened a b flags) s out n <-> whole (opened ei_utf7 b flags) u out n).
Proof.
  intros. eapply scalar_pivot; eauto using utf7_carries; [apply targetb_ok|apply sourceb_ok|]; reflexivity.
Qed.
Definition state_of7 (o : Z) : Prop := exists m, mode_ok m /\ o = word m.
Lemma utf7_expresses : expresses enc_utf7 (fun c => scalar c = true) state_of7.
Proof.
  split; [exists None; split; [exact I|reflexivity]|]. intros c o Pc (m & M & ->).
  assert (U : ucs4 c) by (unfold scalar, ucs4 in *; lia). destruct (enc7_at m c M U) as (need & N & X). rewrite (emit_at enc_utf7 1 (le_n 1) _ _ _ _ X N).
  destruct (enc7 m c) as [[b m1]|] eqn:E7; [|exfalso; revert E7; apply enc7_total; [exact M|now apply scalar_7]].
  exists b, (word m1). split; [reflexivity|]. exists m1. split; [|reflexivity]. now apply (enc7_ok m c b m1).
Qed.
(** Every such text can be written in UTF-7, and reading it back gives the same text in UTF-8. *)
Theorem C34_utf7_expresses_everything : forall a flags s v, source a -> input s -> whole (opened a ei_utf8 flags) s v 0 ->
  exists u, whole (opened a ei_utf7 flags) s u 0 /\ (input u -> whole (opened ei_utf7 ei_utf8 flags) u v 0).
Proof.
  intros a flags s v Sa I W. destruct (scalar_expressed a ei_utf7 enc_utf7 flags s v state_of7) as (u & U); auto using utf7_expresses; [apply targetb_ok; reflexivity|].
  exists u. split; [exact U|]. intros Iu. apply (C34_utf7_reads_back a ei_utf8 flags s u v v 0); auto. apply targetb_ok; reflexivity.
Qed.
Theorem C34_round_trip : forall flags s u, input s -> input u -> whole (opened ei_utf8 ei_utf8 flags) s s 0 ->
  whole (opened ei_utf8 ei_utf7 flags) s u 0 -> whole (opened ei_utf7 ei_utf8 flags) u s 0.
Proof.
  intros flags s u Is Iu W U. apply (C34_utf7_reads_back ei_utf8 ei_utf8 flags s u s s 0); auto; [apply sourceb_ok|apply targetb_ok]; reflexivity.
Qed.
(** UTF-7 text consists of 7-bit characters. *)
Lemma b64_ascii : forall i, 0 <= i < 64 -> 0 <= b64 i < 128.
Proof.
  intros i H. assert (X : (if (0 <=? b64 i) then b64 i <? 128 else false) = true) by (apply (sweep 64 (fun i => if (0 <=? b64 i) then b64 i <? 128 else false)); [vm_compute; reflexivity|lia]).
  destruct (Z.leb_spec 0 (b64 i)); [lia|discriminate].
Qed.
Definition ascii (c : Z) : Prop := 0 <= c < 128.
Lemma groups_ascii : forall p d k w, Forall ascii (map b64 (groups p d k w)).
Proof.
  intros p d k w. unfold groups. cbv zeta. generalize (Z.to_nat ((p + k) / 6)) as q. induction q as [|q IH]; cbn [sextets map]; constructor; auto.
  apply b64_ascii, Z.mod_pos_bound. lia.
Qed.
Lemma fill_ascii : forall p d, pend_ok p d -> Forall ascii (fill p d).
Proof.
  intros p d [(-> & ->)|[(-> & D)|(-> & D)]]; unfold fill; cbn [Z.eqb Pos.eqb]; repeat constructor; apply b64_ascii; cbn; lia.
Qed.
Lemma direct_ascii : forall c, 0 <= c -> direct c = true -> ascii c.
Proof. intros c N. unfold direct, ascii. destruct (Z.ltb_spec c 128); [lia|discriminate]. Qed.
Lemma enc7_ascii : forall m c bs m', mode_ok m -> 0 <= c -> enc7 m c = Some (bs, m') -> Forall ascii bs.
Proof.
  assert (G : forall p d c bs q, b64_of p d c = Some (bs, q) -> Forall ascii bs).
  { intros p d c bs q. unfold b64_of. destruct (units c) as [[k w]|]; [|discriminate]. intros E. inversion E. apply groups_ascii. }
  intros [[p d]|] c bs m' M N E; cbn [enc7 mode_ok] in *.
  - destruct (direct c) eqn:D.
    + inversion E. apply Forall_app. split; [now apply fill_ascii|]. destruct (xbase64 c); repeat constructor; try (unfold ascii; lia); now apply direct_ascii.
    + destruct (b64_of p d c) as [[b q]|] eqn:X; inversion E; subst. eauto.
  - destruct (direct c) eqn:D; [inversion E; repeat constructor; now apply direct_ascii|].
    destruct (c =? 43); [inversion E; repeat constructor; unfold ascii; lia|].
    destruct (b64_of 0 0 c) as [[b q]|] eqn:X; inversion E; subst. constructor; [unfold ascii; lia|eauto].
Qed.
Theorem C34_utf7_is_ascii : forall a flags s u n, source a -> input s -> whole (opened a ei_utf7 flags) s u n -> Forall ascii u.
Proof.
  intros a flags s u n Sa I W. eapply (whole_bytes a ei_utf7 enc_utf7 flags s u n state_of7); eauto.
  - apply targetb_ok; reflexivity.
  - exists None. split; [exact Logic.I|reflexivity].
  - intros c o bs o' U (m & M & ->) E. destruct (enc7_at m c M U) as (need & N & X). rewrite (emit_at enc_utf7 1 (le_n 1) _ _ _ _ X N) in E.
    destruct (enc7 m c) as [[b m1]|] eqn:E7; inversion E; subst. split; [apply (enc7_ascii m c bs m1); auto; apply U|]. exists m1. split; [|reflexivity]. now apply (enc7_ok m c bs m1).
  - intros o (m & M & ->). rewrite closing7 by exact M. destruct m as [[p d]|]; cbn; [|constructor]. apply Forall_app. split; [now apply fill_ascii|]. repeat constructor; unfold ascii; lia.
Qed.
(** "Hi é+😀" *)
Example C34_case : let s := [72; 105; 32; 0xc3; 0xa9; 43; 0xf0; 0x9f; 0x98; 0x80] in let u := [72; 105; 32; 43; 65; 79; 107; 65; 75; 57; 103; 57; 51; 103; 65; 45] in
  whole (opened ei_utf8 ei_utf7 0) s u 0 /\ whole (opened ei_utf8 ei_utf8 0) s s 0 /\ whole (opened ei_utf7 ei_utf8 0) u s 0.
Proof.
  cbv zeta. assert (A : whole (opened ei_utf8 ei_utf7 0) [72; 105; 32; 0xc3; 0xa9; 43; 0xf0; 0x9f; 0x98; 0x80] [72; 105; 32; 43; 65; 79; 107; 65; 75; 57; 103; 57; 51; 103; 65; 45] 0) by wrun 40%nat.
  assert (B : whole (opened ei_utf8 ei_utf8 0) [72; 105; 32; 0xc3; 0xa9; 43; 0xf0; 0x9f; 0x98; 0x80] [72; 105; 32; 0xc3; 0xa9; 43; 0xf0; 0x9f; 0x98; 0x80] 0) by wrun 40%nat.
  split; [exact A|]. split; [exact B|]. apply C34_round_trip; auto; inp.
Qed.
