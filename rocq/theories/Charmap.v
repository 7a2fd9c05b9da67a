(** Specification of table-driven character encodings: published charmaps, in the layout of the files
    tests/data/X.TXT (bytes, character) and tests/data/X.IRREVERSIBLE.TXT of /repo.

    Nothing here mentions the converters; the tables themselves are in Maps_*.v, generated from tests/data. *)
From Coq Require Import ZArith List Bool.
Import ListNotations.
Open Scope Z_scope.

(** A row: leading bytes, first last byte, the characters for it and the following last bytes; -1 stands for "no character". *)
Definition row : Type := list Z * Z * list Z.
(** At most one row for every sequence of leading bytes. *)
Definition charmap : Type := list row.

Fixpoint nth_char (l : list Z) (i : Z) : option Z :=
  match l with
  | [] => None
  | c :: l' => if i =? 0 then (if c <? 0 then None else Some c) else nth_char l' (i - 1)
  end.
Fixpoint same (a b : list Z) : bool :=
  match a, b with
  | [], [] => true
  | x :: a', y :: b' => if x =? y then same a' b' else false
  | _, _ => false
  end.
(** The character that a byte sequence stands for: leading bytes p, last byte b. *)
Fixpoint char_at (m : charmap) (p : list Z) (b : Z) : option Z :=
  match m with
  | [] => None
  | (q, start, cs) :: m' => if same q p then (if b <? start then None else nth_char cs (b - start)) else char_at m' p b
  end.
Definition char_of (m : charmap) (bs : list Z) : option Z :=
  match rev bs with
  | [] => None
  | b :: p => char_at m (rev p) b
  end.

(** Pairs on which the two directions differ: (bytes, character). *)
Definition pairs : Type := list (list Z * Z).
Fixpoint listed (l : pairs) (bs : list Z) (c : Z) : bool :=
  match l with
  | [] => false
  | (x, d) :: l' => if d =? c then (if same x bs then true else listed l' bs c) else listed l' bs c
  end.
(** A character is written as these bytes: exactly one of the charmap and the list of irreversible pairs says so. *)
Definition maps_tob (m : charmap) (irr : pairs) (c : Z) (bs : list Z) : bool :=
  xorb (match char_of m bs with Some d => d =? c | None => false end) (listed irr bs c).
Definition maps_to (m : charmap) (irr : pairs) (c : Z) (bs : list Z) : Prop := maps_tob m irr c bs = true.
Definition stands_for (m : charmap) (c : Z) (bs : list Z) : Prop := char_of m bs = Some c.

(** A text is spelled by a byte string when its characters are spelled by consecutive pieces. *)
Definition spelled (R : Z -> list Z -> Prop) (cs s : list Z) : Prop := exists pieces, Forall2 R cs pieces /\ s = concat pieces.
