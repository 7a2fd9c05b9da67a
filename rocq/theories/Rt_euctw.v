(** EUC-TW reads back what was written. *)
From Coq Require Import ZArith List Bool Lia.
From Verif Require Import Base Loop Contract LoopLib Reflect Sx Rng EncLib DecLib Spec SpecProps Leaf CharLib UniSpec Round DLeaf Unroll RtLib Rt_cns.
From Verif Require Import Conv_uni Conv_sb Conv_set_ja Conv_set_zh Conv_set_ko Conv_cjk Conv_iso2022 Encodings.
Import ListNotations.
Open Scope Z_scope.

Definition none_rel (o : Z) (i : Z * Z) : Prop := o = 0 /\ i = (0, 0).
Ltac sx_call m ::= lazymatch m with
  | ?f (lbuf ?b ?i ?n) ?k => let l := eval cbv -[Z.sub Z.add] in (lbuf b i n) in change (f (lbuf b i n) k) with (f l k)
  | cns11643_15_mbtowc _ _ => match goal with H : cns_back ?p ?a ?b ?c |- _ => pose proof (cns_use_15 _ _ _ _ H ltac:(lia)) end
  | _ => cns_call m end.
Ltac s_open ::= change (f_mb enc_euc_tw) with (mb0 euc_tw_mbtowc); unfold mb0, euc_tw_mbtowc, euc_tw_mbtowc_j.
Ltac s_rel ::= split; reflexivity.
(** Bytes of the result as variables. *)
Lemma u8_var : forall a k, 0 <= a + k < 256 -> exists x, u8 (a + k) = x /\ a = x - k.
Proof. intros a k H. exists (a + k). unfold u8. rewrite Z.mod_small by lia. split; [reflexivity|lia]. Qed.
Ltac tw_norm := repeat match goal with |- context [u8 (?a + ?k)] =>
  let x := fresh "x" in let E := fresh in let E' := fresh in destruct (u8_var a k ltac:(lia)) as (x & E & E'); rewrite E; clear E; subst a end.
(** There are no planes 8 to 14. *)
Lemma no_plane : forall p a b c, cns_back p a b c -> p <> 1 -> p <> 2 -> p <> 3 -> p <> 4 -> p <> 5 -> p <> 6 -> p <> 7 -> p <> 15 -> False.
Proof.
  intros p a b c H. intros. unfold cns_back, plane in H.
  repeat match type of H with context [?x =? ?y] => destruct (Z.eqb_spec x y); [lia|] end. discriminate H.
Qed.
Ltac s_eq ::= first [reflexivity | exfalso; eapply no_plane; [eassumption|lia..] | cbv [oset]; apply s_same; [reflexivity|lia]].
Lemma euc_tw_step : forall c o i, plain [] c -> none_rel o i -> sgoal enc_euc_tw none_rel c o i.
Proof.
  intros c o i (U & T & N) (-> & ->). apply scalar_ucs4 in U. unfold tag in T. clear N. pose proof U as U'. unfold ucs4 in U'.
  unfold sgoal. change (f_wc enc_euc_tw) with (wc0 euc_tw_wctomb). unfold wc0, euc_tw_wctomb. sx.
  all: tw_norm; s_end.
Qed.
Lemma euc_tw_carries : carries enc_euc_tw (plain []).
Proof.
  apply (rel_step _ _ none_rel); [split; reflexivity|exact euc_tw_step|]. intros o i (-> & ->). split; reflexivity.
Qed.
