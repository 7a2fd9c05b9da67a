(** Decoders that store nothing but Unicode scalar values in *pwc, by following their text: one rule for every construct of the model. *)
From Coq Require Import ZArith List Bool Lia.
From Verif Require Import Base UniSpec Contract UniProps.
Import ListNotations.
Open Scope Z_scope.

Definition okw (o : option Z) : Prop := match o with Some w => scalar w = true | None => True end.
(** Whatever x stores through pwc (the part p of its result) is a scalar value. *)
Definition scp {A : Type} (p : A -> option Z) (x : res A) : Prop := match x with Ok a => okw (p a) | _ => True end.
Definition p2 (a : Z * option Z) : option Z := snd a.
Definition p4 (a : Z * option Z * Z * Z) : option Z := snd (fst (fst a)).

Lemma scp_rd : forall A (p : A -> option Z) s i k, (forall c, nth_error s i = Some c -> scp p (k c)) -> scp p (rd s i k).
Proof. intros A p s i k H. unfold rd. destruct (nth_error s i); [now apply H|exact I]. Qed.
Lemma scp_rd_byte : forall A (p : A -> option Z) s i k, bytes s -> (forall c, 0 <= c < 256 -> nth_error s i = Some c -> scp p (k c)) -> scp p (rd s i k).
Proof.
  intros A p s i k B H. apply scp_rd. intros c E. apply H; [|exact E]. apply nth_error_In in E. unfold bytes in B. rewrite Forall_forall in B. exact (B _ E).
Qed.
Lemma scp_ck : forall A (p : A -> option Z) x k, scp p (k x) -> scp p (ck x k).
Proof. intros A p x k H. unfold ck. destruct (_ && _); [exact H|exact I]. Qed.
Lemma scp_shck : forall A (p : A -> option Z) x k, scp p (k x) -> scp p (shck x k).
Proof. intros A p x k H. unfold shck. destruct (_ && _); [exact H|exact I]. Qed.
Lemma scp_nsub : forall A (p : A -> option Z) a b k, scp p (k (Nat.sub a b)) -> scp p (nsub a b k).
Proof. intros A p a b k H. unfold nsub. destruct (Nat.leb b a); [exact H|exact I]. Qed.
Lemma scp_oget : forall A (p : A -> option Z) o k, okw o -> (forall w, scalar w = true -> scp p (k w)) -> scp p (oget o k).
Proof. intros A p [w|] k O H; [now apply H|exact I]. Qed.
Lemma scp_wrb : forall A (p : A -> option Z) n r o v k, (forall l, scp p (k l)) -> scp p (wrb n r o v k).
Proof. intros A p n r o v k H. unfold wrb. destruct (Nat.ltb o n); [apply H|exact I]. Qed.
Lemma scp_bind2 : forall A (p : A -> option Z) x k, scp p2 x -> (forall c o, okw o -> scp p (k (c, o))) -> scp p (bind x k).
Proof. intros A p [(c, o)| | |] k X H; cbn; auto. Qed.
Lemma scp_bind4 : forall A (p : A -> option Z) x k, scp p4 x -> (forall c o i b, okw o -> scp p (k (c, o, i, b))) -> scp p (bind x k).
Proof. intros A p [(((c, o), i), b)| | |] k X H; cbn; auto. Qed.
Lemma okw_oset : forall a b, okw a -> okw b -> okw (oset a b).
Proof. intros a [b|] A B; assumption. Qed.
(** All entries of a table satisfy q. *)
Fixpoint tall (q : Z -> bool) (t : tab) : bool :=
  match t with TLeaf => true | TNode l o r => tall q l && (match o with Some row => forallb q row | None => true end && tall q r) end.
Lemma tall_look : forall q t p row, tall q t = true -> tlook t p = Some row -> forallb q row = true.
Proof.
  induction t as [|l IHl o r IHr]; intros p row H E; [discriminate|]. cbn in H. apply andb_true_iff in H. destruct H as (H1 & H). apply andb_true_iff in H. destruct H as (H2 & H3).
  destruct p; cbn in E; eauto. subst o. exact H2.
Qed.
Lemma nthp_all : forall q l i v, forallb q l = true -> nthp l i = Some v -> q v = true.
Proof.
  induction l as [|x l IH]; intros i v H E; [discriminate|]. cbn in H, E. apply andb_true_iff in H. destruct H as (H1 & H2). destruct (i =? 0); [now injection E as <-|eauto].
Qed.
Lemma tget_all : forall q A (p : A -> option Z) t i k, tall q t = true -> (forall v, q v = true -> scp p (k v)) -> scp p (tget t i k).
Proof.
  intros q A p t i k T H. unfold tget, tlookup. destruct (i <? 0); [exact I|]. destruct (tlook t _) as [row|] eqn:E; [|exact I].
  destruct (nthp row _) as [v|] eqn:N; [|exact I]. apply H. eapply nthp_all; [eapply tall_look; eauto|exact N].
Qed.
Lemma scp_tget : forall A (p : A -> option Z) t i k, tall scalar t = true -> (forall v, scalar v = true -> scp p (k v)) -> scp p (tget t i k).
Proof. intros A p t i k. apply tget_all. Qed.
(** The first character of a block of 256. *)
Definition page (v : Z) : bool := (v mod 256 =? 0) && scalar v.
Lemma scp_tget_page : forall A (p : A -> option Z) t i k, tall page t = true -> (forall v, page v = true -> scp p (k v)) -> scp p (tget t i k).
Proof. intros A p t i k. apply tget_all. Qed.
Lemma scp_tget_any : forall A (p : A -> option Z) t i k, (forall v, scp p (k v)) -> scp p (tget t i k).
Proof. intros A p t i k H. unfold tget. destruct (tlookup t i); [apply H|exact I]. Qed.
Lemma page_lor : forall v x, page v = true -> scalar (Z.lor v (Z.land x 255)) = true.
Proof.
  intros v x H. unfold page in H. apply andb_true_iff in H. destruct H as (M & S). apply Z.eqb_eq in M.
  assert (B : 0 <= Z.land x 255 < 256) by (change 255 with (Z.ones 8); rewrite Z.land_ones by lia; apply Z.mod_pos_bound; lia).
  rewrite (Z.div_mod v 256) by lia. rewrite M, Z.add_0_r, Z.mul_comm. rewrite (lor_mul _ _ 8 256) by (try reflexivity; lia).
  unfold scalar in *. apply orb_true_iff in S. apply orb_true_iff. rewrite !andb_true_iff in *. pose proof (Z.div_mod v 256 ltac:(lia)). lia.
Qed.
Lemma bytes_skipn : forall s k, bytes s -> bytes (skipn k s).
Proof. intros s k B. unfold bytes in *. rewrite Forall_forall in *. intros x I. apply B. rewrite <- (firstn_skipn k s). apply in_or_app. now right. Qed.
Lemma bytes_one : forall x, 0 <= x < 256 -> bytes [x].
Proof. intros x H. constructor; [exact H|constructor]. Qed.
Ltac hdc t := lazymatch t with ?f _ => hdc f | _ => t end.
(** The value is one of the table, an ASCII character, or a number. *)
Ltac leaf := cbn [scp p2 p4 snd fst okw oset];
  repeat match goal with |- okw (oset _ _) => apply okw_oset end;
  first [exact I | assumption | reflexivity | apply page_lor; assumption | match goal with H : okw _ |- _ => exact H end
        | unfold okw, scalar in *; repeat match goal with H : (if ?a then _ else _) = _ |- _ => destruct a eqn:?; try discriminate H | H : (_ || _) = true |- _ => apply orb_true_iff in H | H : (_ && _) = true |- _ => apply andb_true_iff in H end;
          repeat match goal with |- context [if ?b then _ else _] => destruct b eqn:? end; unfold u16; try rewrite Z.mod_small by lia; lia
        | idtac ].
(** A byte read twice is the same byte. *)
Ltac reread := try match goal with H : nth_error ?s ?i = Some ?a, H' : nth_error ?s ?i = Some ?b |- _ => rewrite H in H'; injection H' as <- end.
Ltac sstep known := lazymatch goal with
  | |- scp _ (let x := _ in _) => cbv zeta
  | |- scp _ (rd ?s _ _) => first [apply scp_rd_byte; [solve [repeat apply bytes_skipn; assumption]|intros; reread] | apply scp_rd; intros; reread]
  | |- scp _ (ck _ _) => apply scp_ck
  | |- scp _ (shck _ _) => apply scp_shck
  | |- scp _ (nsub _ _ _) => apply scp_nsub
  | |- scp _ (wrb _ _ _ _ _) => apply scp_wrb; intros
  | |- scp _ (oget _ _) => apply scp_oget; [leaf|intros]
  | |- scp _ (tget _ _ _) => first [apply scp_tget_page; [vm_compute; reflexivity|intros] | apply scp_tget; [vm_compute; reflexivity|intros] | apply scp_tget_any; intros]
  | |- scp _ (bind _ _) => first [apply scp_bind2; [known|intros] | apply scp_bind4; [known|intros]]
  | |- scp _ (if ?b then _ else _) => destruct b eqn:?
  | |- scp _ (Ok _) => leaf
  | |- scp _ UB => exact I
  | |- scp _ Abort => exact I
  | |- scp _ NoFuel => exact I
  | |- scp _ ?t => first [known | let f := hdc t in unfold f]
  end.
