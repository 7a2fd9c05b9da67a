(** The C++ interface (C23). *)
From Coq Require Import ZArith List Bool Lia.
From Verif Require Import Base Indexes Loop Contract LoopLib LoopProps Spec SpecProps Encodings Api AllOk Public Demo C_iconv C_api Cpp.
Import ListNotations.
Open Scope Z_scope.

Lemma opened_zero : forall i j fl, 0 <= i < 198 -> 0 <= j < 198 -> istate (opened i j fl) = 0 /\ ostate (opened i j fl) = 0 /\ iindex (opened i j fl) = i.
Proof.
  intros i j fl I J. pose proof (open_ok i j fl I J) as E. unfold reiconv_open_from_index in E.
  destruct (encoding_at i); [|discriminate]. destruct (encoding_at j); [|discriminate]. inversion E as [E']. cbn. auto.
Qed.
Lemma src_range : forall i, source i -> 0 <= i < 198.
Proof. intros i (H & _). now rewrite num_encodings in H. Qed.
Lemma tgt_range : forall i, target i -> 0 <= i < 198.
Proof. intros i (H & _). now rewrite num_encodings in H. Qed.

(** After the size computation the descriptor is as it was after opening. *)
Lemma sized_again : forall cd z, reachable cd -> reachable (s_cd z) -> initial cd (s_cd z) -> istate cd = 0 -> ostate cd = 0 -> ~ In (iindex cd) bom_sources -> s_cd z = cd.
Proof.
  intros cd z H RC IZ I0 O0 NB. destruct IZ as (SD & I1 & I2). pose proof SD as SD'. apply same_at in SD. rewrite SD.
  unfold cd_i. rewrite I1, I2. rewrite (not_bom_byteorder (s_cd z) RC); [|destruct SD' as (Y & _); rewrite Y; exact NB].
  pose proof (not_bom_byteorder cd H NB) as B0. destruct cd; cbn in *; subst; reflexivity.
Qed.
Lemma plain_not_full : forall cd s out, converted cd s out ->
  (forall cs i, rd cd s cs AtEnd [] i -> plain (ofuncs cd) (cs ++ held (ifuncs cd) (fst i)) (ostate cd)) -> not_full cd s (length out).
Proof.
  intros cd s out (cs & i & bs & m & o & C1 & C2 & C3) PLAIN. pose proof (PLAIN cs i C1) as P.
  intros cs' st' rest' i' out1 n1 o1 R1 W1. destruct (rd_det _ _ _ _ _ _ _ _ _ _ R1 C1) as (-> & -> & -> & ->).
  destruct (held_one (ifuncs cd) (fst i)) as [HE|(wc & HE)]; [now left|right]. rewrite HE in *.
  destruct (plain_mid _ _ _ _ _ _ _ _ _ P W1) as (b1 & o2 & Y1 & Y2). cbn in Y2. rewrite (wr_app _ _ _ _ _ _ W1) in C2. cbn in C2.
  unfold write1 in C2. rewrite Y1 in C2. inversion C2; subst. rewrite <- app_assoc, app_length, app_nil_r.
  destruct (b1 ++ closing (ofuncs cd) o) eqn:Y; [contradiction|cbn; lia].
Qed.

(** A text that can be converted, each of whose characters is representable, is returned converted, and the
    descriptor is released.  Partial: texts with unrepresentable (discarded) characters and the sources that
    remember a byte order mark are excluded. *)
Theorem C23_convert_returns_partial : forall i j s tmp flag out, source i -> target j -> ~ In i bom_sources -> input s ->
  length tmp = TEMP_BUFFER_SIZE -> converted (opened i j flag) s out ->
  (forall cs k, rd (opened i j flag) s cs AtEnd [] k -> plain (ofuncs (opened i j flag)) (cs ++ held (ifuncs (opened i j flag)) (fst k)) 0) ->
  cpp_convert true true i j s tmp flag = Ok (mkCpp (Returned out) 0).
Proof.
  intros i j s tmp flag out S T NB I L C PLAIN. pose proof (src_range _ S) as RI. pose proof (tgt_range _ T) as RJ.
  destruct (opened_zero i j flag RI RJ) as (I0 & O0 & IX).
  assert (H : reachable (opened i j flag)) by (eapply reach_open; [exact S|exact T|now apply open_ok]).
  unfold cpp_convert. rewrite open_ok by assumption. cbn [bind]. set (cd := opened i j flag) in *.
  destruct (result_size_spec cd s tmp H I L) as (z & E & RC & SP). rewrite E. cbn [bind].
  destruct (s_ret z) as [n|e]; [|destruct SP as (_ & SP); contradiction (SP out C)].
  destruct SP as ((out' & C' & ->) & IZ & _). pose proof (converted_det _ _ _ _ C C'). subst out'.
  rewrite (sized_again cd z H RC IZ I0 O0) by (rewrite IX; exact NB).
  rewrite <- O0 in PLAIN. pose proof (plain_not_full cd s out C PLAIN) as NF.
  set (blk := repeat 0 (length out) ++ [0]).
  assert (BL : length blk = Datatypes.S (length out)) by (unfold blk; rewrite app_length, repeat_length; cbn; lia).
  destruct C as (cs & k & bs & m & o & C1 & C2 & C3).
  destruct (static_plain cd s blk (length out) cs k bs m o H I) as (r & E2 & X2); auto; [lia|rewrite C3; lia|].
  rewrite E2. cbn [bind]. rewrite X2. f_equal. f_equal.
  destruct (static_size_spec cd s blk (length out) H I) as (r' & E3 & S3); [lia|exact NF|]. rewrite E2 in E3. inversion E3; subst r'.
  destruct S3 as (_ & outb' & S1 & S2 & S3 & S4). rewrite X2 in S4. rewrite S1.
  destruct S4 as (_ & _ & cs' & st' & rest' & k' & bs' & m' & o' & A1 & A2 & A3 & A4 & A5).
  destruct (rd_det _ _ _ _ _ _ _ _ _ _ A1 C1) as (-> & -> & -> & ->). rewrite C2 in A3. inversion A3; subst bs' m' o'. rewrite <- C3 in *. now rewrite A5.
Qed.
(** For any text that can be converted: the whole result is returned, or std::system_error with E2BIG is thrown;
    never is anything else returned.  Partial: byte order marks as above, and the held-back character must not meet
    a full buffer. *)
Theorem C23_right_or_thrown_partial : forall i j s tmp flag out, source i -> target j -> ~ In i bom_sources -> input s ->
  length tmp = TEMP_BUFFER_SIZE -> converted (opened i j flag) s out -> not_full (opened i j flag) s (length out) ->
  cpp_convert true true i j s tmp flag = Ok (mkCpp (Returned out) 0) \/
  cpp_convert true true i j s tmp flag = Ok (mkCpp (System_error E2BIG) 0).
Proof.
  intros i j s tmp flag out S T NB I L C NF. pose proof (src_range _ S) as RI. pose proof (tgt_range _ T) as RJ.
  destruct (opened_zero i j flag RI RJ) as (I0 & O0 & IX).
  assert (H : reachable (opened i j flag)) by (eapply reach_open; [exact S|exact T|now apply open_ok]).
  unfold cpp_convert. rewrite open_ok by assumption. cbn [bind]. set (cd := opened i j flag) in *.
  destruct (result_size_spec cd s tmp H I L) as (z & E & RC & SP). rewrite E. cbn [bind].
  destruct (s_ret z) as [n|e]; [|destruct SP as (_ & SP); contradiction (SP out C)].
  destruct SP as ((out' & C' & ->) & IZ & _). pose proof (converted_det _ _ _ _ C C'). subst out'.
  rewrite (sized_again cd z H RC IZ I0 O0) by (rewrite IX; exact NB).
  set (blk := repeat 0 (length out) ++ [0]).
  assert (BL : length blk = Datatypes.S (length out)) by (unfold blk; rewrite app_length, repeat_length; cbn; lia).
  destruct C as (cs & k & bs & m & o & C1 & C2 & C3).
  destruct (static_size_spec cd s blk (length out) H I) as (r & E3 & S3); [lia|exact NF|]. rewrite E3. cbn [bind].
  destruct S3 as (_ & outb' & S1 & S2 & S3 & S4). destruct (st_ret r) as [n|[]]; try contradiction.
  - left. destruct S4 as (_ & _ & cs' & st' & rest' & k' & bs' & m' & o' & A1 & A2 & A3 & A4 & A5). rewrite S1.
    destruct (rd_det _ _ _ _ _ _ _ _ _ _ A1 C1) as (-> & -> & -> & ->). rewrite C2 in A3. inversion A3; subst bs' m' o'. rewrite <- C3 in *. now rewrite A5.
  - now right.
  - contradiction (S4 out C').
Qed.
(** Both happen: a character that is discarded at the end finds the exact-size buffer full. *)
Example C23_thrown_case : cpp_convert true true ei_utf8 ei_ascii [0x61; 0xc3; 0xa9] (repeat 0 TEMP_BUFFER_SIZE) 1 = Ok (mkCpp (System_error E2BIG) 0) /\
  cpp_convert true true ei_utf8 ei_ascii [0xc3; 0xa9; 0x61] (repeat 0 TEMP_BUFFER_SIZE) 1 = Ok (mkCpp (Returned [0x61]) 0).
Proof. split; vm_compute; reflexivity. Qed.
(** Without memory for the descriptor std::system_error with ENOMEM is thrown, without memory for the string
    std::bad_alloc. *)
Theorem C23_no_memory : forall str i j s tmp flag, source i -> target j ->
  cpp_convert false str i j s tmp flag = Ok (mkCpp (System_error ENOMEM) 0).
Proof.
  intros str i j s tmp flag S T. pose proof (src_range _ S) as RI. pose proof (tgt_range _ T) as RJ.
  pose proof (open_ok i j flag RI RJ) as E. unfold cpp_convert, reiconv_open_from_index in *.
  destruct (encoding_at i); [|discriminate]. destruct (encoding_at j); [|discriminate]. reflexivity.
Qed.
(** It is what reiconv_convert delivers. *)
Theorem C23_agrees_with_c_partial : forall i j s tmp flag out alloc blk block, source i -> target j -> ~ In i bom_sources -> input s ->
  length tmp = TEMP_BUFFER_SIZE -> converted (opened i j flag) s out ->
  (forall cs k, rd (opened i j flag) s cs AtEnd [] k -> plain (ofuncs (opened i j flag)) (cs ++ held (ifuncs (opened i j flag)) (fst k)) 0) ->
  alloc (length out) = Some blk -> length blk = length out ->
  exists r b, reiconv_convert alloc (opened i j flag) s tmp (PVar block) true = Ok r /\ c_ret r = Num 0 /\ c_ptr r = PVar (Some b) /\ c_len r = Some (length b) /\
    cpp_convert true true i j s tmp flag = Ok (mkCpp (Returned b) 0).
Proof.
  intros i j s tmp flag out alloc blk block S T NB I L C PLAIN AL BL. pose proof (src_range _ S) as RI. pose proof (tgt_range _ T) as RJ.
  destruct (opened_zero i j flag RI RJ) as (I0 & O0 & IX).
  assert (H : reachable (opened i j flag)) by (eapply reach_open; [exact S|exact T|now apply open_ok]).
  destruct (C21_convert_succeeds_partial alloc (opened i j flag) s tmp block out blk H I L I0 O0 ltac:(rewrite IX; exact NB) C PLAIN AL BL) as (r & E1 & E2 & E3 & E4).
  exists r, out. repeat split; auto. now apply C23_convert_returns_partial.
Qed.
(** Whenever it returns or throws std::system_error, the descriptor has been released. *)
Theorem C23_no_leak_partial : forall mem str i j s tmp flag r, cpp_convert mem str i j s tmp flag = Ok r ->
  (exists t, x_end r = Returned t) \/ (exists e, x_end r = System_error e) -> x_leaked r = 0%nat.
Proof.
  intros mem str i j s tmp flag r E X. unfold cpp_convert in E.
  destruct (reiconv_open_from_index mem i j flag) as [[cd|e]| | |]; cbn [bind] in E; try discriminate; [|inversion E; reflexivity].
  destruct (reiconv_result_size cd s tmp) as [z| | |]; cbn [bind] in E; try discriminate.
  destruct (s_ret z); [|inversion E; subst; cbn in X; destruct X as [(t & X)|(e' & X)]; discriminate].
  destruct str; [|inversion E; subst; cbn in X; destruct X as [(t & X)|(e' & X)]; discriminate].
  destruct (reiconv_convert_static_size _ _ _ _) as [q| | |]; cbn [bind] in E; try discriminate. destruct (st_ret q); inversion E; reflexivity.
Qed.
(** Every text that cannot be converted makes it throw std::length_error, and the descriptor is lost. *)
Theorem C23_bad_text : forall str i j s tmp flag, source i -> target j -> input s -> length tmp = TEMP_BUFFER_SIZE ->
  (forall out, ~ converted (opened i j flag) s out) -> cpp_convert true str i j s tmp flag = Ok (mkCpp Length_error 1).
Proof.
  intros str i j s tmp flag S T I L N. pose proof (src_range _ S) as RI. pose proof (tgt_range _ T) as RJ.
  assert (H : reachable (opened i j flag)) by (eapply reach_open; [exact S|exact T|now apply open_ok]).
  unfold cpp_convert. rewrite open_ok by assumption. cbn [bind].
  destruct (result_size_spec (opened i j flag) s tmp H I L) as (z & E & RC & SP). rewrite E. cbn [bind].
  destruct (s_ret z); [destruct SP as ((out & C & _) & _); contradiction (N out C)|]. reflexivity.
Qed.
Theorem C23_refuted : exists i j s tmp flag r, source i /\ target j /\ input s /\ length tmp = TEMP_BUFFER_SIZE /\
  cpp_convert true true i j s tmp flag = Ok r /\ x_end r = Length_error /\ x_leaked r = 1%nat.
Proof.
  exists ei_utf8, ei_iso8859_1, [0xff], (repeat 0 TEMP_BUFFER_SIZE), 0, (mkCpp Length_error 1).
  split; [apply sourceb_ok; reflexivity|]. split; [apply targetb_ok; reflexivity|]. split; [inp|]. split; [apply repeat_length|]. split; [vm_compute; reflexivity|auto].
Qed.
Example C23_example : cpp_convert true true ei_utf8 ei_iso8859_1 [0x61; 0xc3; 0xa9] (repeat 0 TEMP_BUFFER_SIZE) 0 = Ok (mkCpp (Returned [0x61; 0xe9]) 0).
Proof. vm_compute. reflexivity. Qed.
