(** What a correct decoder and a correct encoder must satisfy for the conversion loop to work.

    These contracts are proof interfaces between the loop theorems (LoopProps.v) and the per-encoding proofs
    (Ok_*.v).  Every encoding named in a public theorem is shown to meet them; none of them is assumed there. *)
From Coq Require Import ZArith List Bool.
From Verif Require Import Base Loop.
Import ListNotations.
Open Scope Z_scope.

(** Inputs longer than this are not covered: decoders of stateful encodings return 2*count in an int
    (RET_TOOFEW, reiconv_defines.h:81), which overflows beyond 2^30 bytes of shift sequences. *)
Definition LIM : Z := 0x3ffffff0.

Definition byte (b : Z) : Prop := 0 <= b < 256.
Definition bytes (s : list Z) : Prop := Forall byte s.
Definition ucs4 (wc : Z) : Prop := 0 <= wc < 0x100000000.

(** Structured view of a decoder result (the four cases of the comment at reiconv_defines.h:51-61). *)
Inductive dres : Type :=
| DChar (k : nat) (wc : Z) (i : Z * Z)
| DFew (k : nat) (i : Z * Z)
| DIll (k : nat) (i : Z * Z).

Definition dview (r : res (Z * option Z * Z * Z)) : option dres :=
  match r with
  | Ok (c, w, ist, ibo) =>
    if c <? 0 then
      if Z.even (-1 - c) then Some (DIll (Z.to_nat ((-1 - c) / 2)) (ist, ibo))
      else Some (DFew (Z.to_nat ((-2 - c) / 2)) (ist, ibo))
    else match w with Some wc => Some (DChar (Z.to_nat c) wc (ist, ibo)) | None => None end
  | _ => None
  end.
Definition dec (f : funcs) (s : list Z) (i : Z * Z) : option dres :=
  dview (f_mb f s (length s) (fst i) (snd i)).

Definition dshift (j : nat) (d : dres) : dres :=
  match d with
  | DChar k wc i => DChar (j + k) wc i
  | DFew k i => DFew (j + k) i
  | DIll k i => DIll (j + k) i
  end.

(** Raw return values stay in the range of int (needed to read them back). *)
Definition dres_ok (unit : nat) (inv : Z * Z -> Prop) (pend : Z * Z -> bool) (P : Z -> Prop)
    (s : list Z) (i : Z * Z) (d : dres) : Prop :=
  match d with
  | DChar k wc i' => (k <= length s)%nat /\ P wc /\ inv i' /\ inv (fst i, snd i') /\
      pend (fst i, snd i') = pend i /\ (k = 0%nat -> pend i = true /\ pend i' = false)
  | DFew k i' => (k <= length s)%nat /\ inv i' /\ (k = 0%nat -> i' = i)
  | DIll k i' => (k + unit <= length s)%nat /\ inv i'
  end.

(** Safety half of the decoder contract. *)
Record dec_ok (f : funcs) (unit : nat) (inv : Z * Z -> Prop) (pend : Z * Z -> bool) (P : Z -> Prop) : Prop := {
  d_init : inv (0, 0);
  d_reset : forall i, inv i -> inv (0, snd i);
  d_pend0 : forall ibo, pend (0, ibo) = false;
  d_run : forall s i, inv i -> s <> [] -> bytes s -> Z.of_nat (length s) <= LIM ->
    exists d, dec f s i = Some d /\ dres_ok unit inv pend P s i d;
  d_flush : forall i, inv i ->
    match f_flush f with
    | None => True
    | Some fl => exists b w ist', fl (fst i) = Ok (b, w, ist') /\ inv (ist', snd i) /\
        (b = 0 -> ist' = fst i) /\
        (b <> 0 -> exists wc, w = Some wc /\ P wc /\ exists w', fl ist' = Ok (0, w', ist'))
    end }.

(** Prefix stability: what a decoder says about the bytes it has seen stays true when more bytes follow. *)
Record dec_stable (f : funcs) (inv : Z * Z -> Prop) : Prop := {
  s_char : forall s t i k wc i', inv i -> bytes s -> bytes t -> Z.of_nat (length (s ++ t)) <= LIM -> s <> [] ->
    dec f s i = Some (DChar k wc i') -> dec f (s ++ t) i = Some (DChar k wc i');
  s_ill : forall s t i k i', inv i -> bytes s -> bytes t -> Z.of_nat (length (s ++ t)) <= LIM -> s <> [] ->
    dec f s i = Some (DIll k i') -> dec f (s ++ t) i = Some (DIll k i');
  s_few : forall s t i k i', inv i -> bytes s -> bytes t -> Z.of_nat (length (s ++ t)) <= LIM -> s <> [] ->
    dec f s i = Some (DFew (S k) i') -> skipn (S k) s ++ t <> [] ->
    dec f (s ++ t) i = Some (DFew (S k) i') \/
    exists d, dec f (skipn (S k) s ++ t) i' = Some d /\ dec f (s ++ t) i = Some (dshift (S k) d);
  s_redo : forall s i k wc i', inv i -> bytes s -> Z.of_nat (length s) <= LIM -> s <> [] ->
    dec f s i = Some (DChar k wc i') -> dec f s (fst i, snd i') = Some (DChar k wc i');
  s_ill_redo : forall s i k i', inv i -> bytes s -> Z.of_nat (length s) <= LIM -> s <> [] ->
    dec f s i = Some (DIll k i') -> dec f (skipn k s) i' = Some (DIll 0 i') }.

(** Every store of a log is below the bound. *)
Definition inb (log : wlog) (n : nat) : Prop := Forall (fun e => (fst e < n)%nat /\ byte (snd e)) log.
(** The log leaves exactly bs in the first |bs| cells. *)
Definition writes (log : wlog) (bs : list Z) : Prop :=
  inb log (length bs) /\ forall j b, nth_error bs j = Some b -> lfind log j = Some b.

(** Behaviour of an encoder on one character in state ost, for every output room n >= 1. *)
Inductive enc_at (f : funcs) (wc ost : Z) : option (list Z * Z) -> nat -> Prop :=
| enc_at_ill (need : nat) :
    (1 <= need)%nat ->
    (forall n, (1 <= n < need)%nat -> exists log, f_wc f wc n ost = Ok (-2, log, ost) /\ inb log n) ->
    (forall n, (need <= n)%nat -> exists log, f_wc f wc n ost = Ok (-1, log, ost) /\ inb log n) ->
    enc_at f wc ost None need
| enc_at_ok (bs : list Z) (ost' : Z) :
    (forall n, (1 <= n < length bs)%nat -> exists log, f_wc f wc n ost = Ok (-2, log, ost) /\ inb log n) ->
    (forall n, (1 <= n)%nat -> (length bs <= n)%nat ->
       exists log, f_wc f wc n ost = Ok (Z.of_nat (length bs), log, ost') /\ writes log bs) ->
    enc_at f wc ost (Some (bs, ost')) (Nat.max 1 (length bs)).

Definition MAXNEED : nat := 16.

Record enc_ok (f : funcs) (oinv : Z -> Prop) (P : Z -> Prop) : Prop := {
  e_init : oinv 0;
  e_wc : forall ost wc, oinv ost -> P wc -> exists o need, (need <= MAXNEED)%nat /\ enc_at f wc ost o need /\
     match o with Some (bs, ost') => oinv ost' | None => True end;
  e_reset : forall ost, oinv ost ->
    match f_reset f with
    | None => True
    | Some rst => exists bs ost', (length bs <= MAXNEED)%nat /\ oinv ost' /\
        (forall n, (n < length bs)%nat -> exists log, rst n ost = Ok (-2, log, ost) /\ inb log n) /\
        (forall n, (length bs <= n)%nat -> exists log, rst n ost = Ok (Z.of_nat (length bs), log, ost') /\ writes log bs)
    end }.
