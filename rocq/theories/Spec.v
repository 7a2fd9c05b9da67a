(** Reference meaning of a conversion, without buffers: what characters a byte string stands for in the source
    encoding, and what bytes a character string stands for in the target encoding.

    Nothing here mentions the conversion loop, buffer sizes, errno or the API. *)
From Coq Require Import ZArith List Bool.
From Verif Require Import Base Loop Contract LoopLib.
Import ListNotations.
Open Scope Z_scope.

(** How reading a byte string ends: at its end, in the middle of a character, or at an invalid sequence. *)
Inductive stop : Type := AtEnd | Truncated | Invalid.

(** [reads f unit skip s i cs st r i']: from decoder state i the bytes s stand for the characters cs; reading
    stops because of st with the bytes r left and the decoder in state i'.  With skip, invalid sequences are
    skipped: [unit] bytes each. *)
Inductive reads (f : funcs) (unit : nat) (skip : bool) : list Z -> Z * Z -> list Z -> stop -> list Z -> Z * Z -> Prop :=
| reads_nil i : reads f unit skip [] i [] AtEnd [] i
| reads_char s i k wc i1 cs st r i2 :
    s <> [] -> dec f s i = Some (DChar k wc i1) -> reads f unit skip (skipn k s) i1 cs st r i2 ->
    reads f unit skip s i (wc :: cs) st r i2
| reads_shift s i k i1 cs st r i2 :
    s <> [] -> dec f s i = Some (DFew (S k) i1) -> reads f unit skip (skipn (S k) s) i1 cs st r i2 ->
    reads f unit skip s i cs st r i2
| reads_trunc s i i1 :
    s <> [] -> dec f s i = Some (DFew 0 i1) -> reads f unit skip s i [] Truncated s i1
| reads_skip s i k i1 cs st r i2 :
    s <> [] -> skip = true -> dec f s i = Some (DIll k i1) -> reads f unit skip (skipn (k + unit) s) i1 cs st r i2 ->
    reads f unit skip s i cs st r i2
| reads_inval s i k i1 :
    s <> [] -> skip = false -> dec f s i = Some (DIll k i1) -> reads f unit skip s i [] Invalid (skipn k s) i1.

(** [takes f unit skip s i cs r i']: reading s from state i, the characters cs take all bytes before r, and leave the decoder in state i'. *)
Inductive takes (f : funcs) (unit : nat) (skip : bool) : list Z -> Z * Z -> list Z -> list Z -> Z * Z -> Prop :=
| takes_none s i : takes f unit skip s i [] s i
| takes_char s i k wc i1 cs r i2 :
    s <> [] -> dec f s i = Some (DChar k wc i1) -> takes f unit skip (skipn k s) i1 cs r i2 -> takes f unit skip s i (wc :: cs) r i2
| takes_shift s i k i1 cs r i2 :
    s <> [] -> dec f s i = Some (DFew (S k) i1) -> takes f unit skip (skipn (S k) s) i1 cs r i2 -> takes f unit skip s i cs r i2
| takes_skip s i k i1 cs r i2 :
    s <> [] -> skip = true -> dec f s i = Some (DIll k i1) -> takes f unit skip (skipn (k + unit) s) i1 cs r i2 -> takes f unit skip s i cs r i2.

(** The bytes for one character when there is ample room (16 bytes), or None if it has no representation. *)
Definition emit (f : funcs) (wc ost : Z) : option (list Z * Z) :=
  match f_wc f wc 16 ost with
  | Ok (c, log, ost') => if c <? 0 then None else Some (log_bytes log 0 (Z.to_nat c), ost')
  | _ => None
  end.

(** Unicode tag characters U+E0000..U+E007F are dropped silently. *)
Definition tag (wc : Z) : bool := (0xe0000 <=? wc) && (wc <=? 0xe007f).

(** One character: bytes, new state and how many characters were lost.  A character without representation is
    dropped when skip is set, otherwise replaced by U+FFFD; None if that cannot be represented either. *)
Definition write1 (f : funcs) (skip : bool) (wc ost : Z) : option (list Z * Z * nat) :=
  match emit f wc ost with
  | Some (bs, ost') => Some (bs, ost', 0%nat)
  | None =>
    if tag wc then Some ([], ost, 0%nat)
    else if skip then Some ([], ost, 1%nat)
    else match emit f 0xfffd ost with Some (bs, ost') => Some (bs, ost', 1%nat) | None => None end
  end.

(** A whole character string: bytes, number of lost characters, final state, and the characters from the first
    one on that cannot be written. *)
Fixpoint writes_all (f : funcs) (skip : bool) (cs : list Z) (ost : Z) : list Z * nat * Z * list Z :=
  match cs with
  | [] => ([], 0%nat, ost, [])
  | wc :: cs' =>
    match write1 f skip wc ost with
    | None => ([], 0%nat, ost, cs)
    | Some (bs, ost', c) =>
      let '(out, n, ost'', bad) := writes_all f skip cs' ost' in (bs ++ out, (c + n)%nat, ost'', bad)
    end
  end.

(** The bytes that return the encoder to its initial state. *)
Definition closing (f : funcs) (ost : Z) : list Z :=
  match f_reset f with
  | None => []
  | Some rst => match rst 16%nat ost with Ok (c, log, _) => log_bytes log 0 (Z.to_nat c) | _ => [] end
  end.

(** The character the decoder still holds back, if any. *)
Definition held (f : funcs) (ist : Z) : list Z :=
  match f_flush f with
  | None => []
  | Some fl => match fl ist with Ok (b, Some wc, _) => if b =? 0 then [] else [wc] | _ => [] end
  end.
