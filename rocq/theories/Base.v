(** Vocabulary of the model of lib/: outcomes of C code, machine integers, buffers and constant tables.

    Nothing in this file is specific to one function of /repo; it fixes how C constructs used by
    lib/converters/*.h, lib/loop_unicode.h and lib/iconv.c are represented. *)
From Coq Require Import ZArith List Bool.
Import ListNotations.
Open Scope Z_scope.

(** Outcome of running C code: a value, undefined behaviour (out-of-bounds or uninitialised access,
    signed overflow, over-wide shift, size_t underflow), a call of abort(), or an exhausted model fuel
    (fuel exists only because Gallina functions must terminate; theorems show it never runs out). *)
Inductive res (A : Type) : Type :=
| Ok (a : A)
| UB
| Abort
| NoFuel.
Arguments Ok {A} a.
Arguments UB {A}.
Arguments Abort {A}.
Arguments NoFuel {A}.

Definition bind {A B : Type} (x : res A) (f : A -> res B) : res B :=
  match x with Ok a => f a | UB => UB | Abort => Abort | NoFuel => NoFuel end.

(** C's && and ||: the right operand is evaluated only when needed. *)
Notation "a &&& b" := (if a then b else false) (at level 40, left associativity) : bool_scope.
Notation "a ||| b" := (if a then true else b) (at level 50, left associativity) : bool_scope.

(** unsigned char / unsigned short / unsigned int conversions (wrap modulo 2^k) and the
    implementation-defined conversion of unsigned int to int (two's complement, as on every supported
    compiler). *)
Definition u8 (x : Z) : Z := x mod 0x100.
Definition u16 (x : Z) : Z := x mod 0x10000.
Definition u32 (x : Z) : Z := x mod 0x100000000.
Definition s32 (x : Z) : Z := let y := u32 x in if y <? 0x80000000 then y else y - 0x100000000.
Definition b2z (b : bool) : Z := if b then 1 else 0.

(** int arithmetic: overflow is undefined behaviour. *)
Definition ck {A : Type} (x : Z) (k : Z -> res A) : res A :=
  if (-0x80000000 <=? x) && (x <=? 0x7fffffff) then k x else UB.
(** Shift counts must be below the width of int. *)
Definition shck {A : Type} (x : Z) (k : Z -> res A) : res A :=
  if (0 <=? x) && (x <? 32) then k x else UB.
(** size_t subtraction.  C wraps; no code in /repo relies on it, so a wrap is reported as UB. *)
Definition nsub {A : Type} (a b : nat) (k : nat -> res A) : res A :=
  if Nat.leb b a then k (Nat.sub a b) else UB.

(** Reading s[i] of the input.  The list is the caller's buffer from the current pointer on. *)
Definition rd {A : Type} (s : list Z) (i : nat) (k : Z -> res A) : res A :=
  match nth_error s i with Some v => k v | None => UB end.

(** A buffer that is written: log of (offset, value), newest first.  What an out-parameter r points to is
    checked against the real buffer by the caller (Loop.v); local arrays carry their size. *)
Definition wlog := list (nat * Z).
Definition wr (r : wlog) (o : nat) (v : Z) : wlog := (o, v) :: r.
Definition wrb {A : Type} (size : nat) (r : wlog) (o : nat) (v : Z) (k : wlog -> res A) : res A :=
  if Nat.ltb o size then k ((o, v) :: r) else UB.
Fixpoint lfind (r : wlog) (o : nat) : option Z :=
  match r with [] => None | (o', v) :: r' => if Nat.eqb o o' then Some v else lfind r' o end.
(** Reading a local array element: undefined unless written before. *)
Definition lrd {A : Type} (r : wlog) (o : nat) (k : Z -> res A) : res A :=
  match lfind r o with Some v => k v | None => UB end.
(** Effect of a callee that was given r + o. *)
Definition lshift (o : nat) (l : wlog) : wlog := map (fun e => (Nat.add o (fst e), snd e)) l.
Definition lapp (r : wlog) (o : nat) (l : wlog) : wlog := lshift o l ++ r.
Definition lappb {A : Type} (size : nat) (r : wlog) (o : nat) (l : wlog) (k : wlog -> res A) : res A :=
  if forallb (fun e => Nat.ltb (Nat.add o (fst e)) size) l then k (lapp r o l) else UB.
(** A local array passed as input to a callee: its initialised prefix from o on. *)
Fixpoint lbuf_ (r : wlog) (o : nat) (k : nat) : list Z :=
  match k with
  | O => []
  | S k' => match lfind r o with Some v => v :: lbuf_ r (S o) k' | None => [] end
  end.
Definition lbuf (r : wlog) (o size : nat) : list Z := lbuf_ r o (Nat.sub size o).

(** Variables that may be uninitialised ( *pwc, ...). *)
Definition oget {A : Type} (x : option Z) (k : Z -> res A) : res A :=
  match x with Some v => k v | None => UB end.
Definition oset (old new : option Z) : option Z :=
  match new with Some _ => new | None => old end.

(** Constant tables: binary trie of rows of sixteen entries. *)
Inductive trie : Type := TLeaf | TNode (l : trie) (o : option (list Z)) (r : trie).
Fixpoint tins (t : trie) (p : positive) (v : list Z) : trie :=
  match p, t with
  | xH, TLeaf => TNode TLeaf (Some v) TLeaf
  | xH, TNode l _ r => TNode l (Some v) r
  | xO q, TLeaf => TNode (tins TLeaf q v) None TLeaf
  | xO q, TNode l o r => TNode (tins l q v) o r
  | xI q, TLeaf => TNode TLeaf None (tins TLeaf q v)
  | xI q, TNode l o r => TNode l o (tins r q v)
  end.
Fixpoint tlook (t : trie) (p : positive) : option (list Z) :=
  match t with
  | TLeaf => None
  | TNode l o r => match p with xH => o | xO q => tlook l q | xI q => tlook r q end
  end.
Definition tab := trie.
Fixpoint mk_ (p : positive) (rows : list (list Z)) (acc : trie) : trie :=
  match rows with [] => acc | r :: rs => mk_ (Pos.succ p) rs (tins acc p r) end.
Definition mk (rows : list (list Z)) : tab := mk_ 1%positive rows TLeaf.
Fixpoint nthp (l : list Z) (i : Z) : option Z :=
  match l with [] => None | x :: l' => if i =? 0 then Some x else nthp l' (i - 1) end.
Definition tlookup (t : tab) (i : Z) : option Z :=
  if i <? 0 then None else
  match tlook t (Z.to_pos (Z.shiftr i 4 + 1)) with
  | Some row => nthp row (Z.land i 15)
  | None => None
  end.
(** t[i]; outside the array: undefined behaviour. *)
Definition tget {A : Type} (t : tab) (i : Z) (k : Z -> res A) : res A :=
  match tlookup t i with Some v => k v | None => UB end.

(** Pointers to Summary16 entries (reiconv_defines.h:144-148); arrays of Summary16 are flattened,
    entry i being at 2*i (indx) and 2*i+1 (used). *)
Definition isnull (p : option (tab * Z)) : bool := match p with Some _ => false | None => true end.
Definition sget {A : Type} (p : option (tab * Z)) (f : Z) (k : Z -> res A) : res A :=
  match p with Some (t, i) => tget t (2 * i + f) k | None => UB end.
