(** Model of lib/loop_unicode.h: the conversion loop and the reset/flush function. *)
From Coq Require Import ZArith List Bool.
From Verif Require Import Base Indexes.
Import ListNotations.
Open Scope Z_scope.

(** reiconv_defines.h:49-71 struct mbtowc_funcs and :94-116 struct wctomb_funcs of one encoding.
    A decoder takes the bytes at s, n, istate and ibyteorder and yields the C return value, what it stored
    in *pwc (None = nothing) and the new istate and ibyteorder.  An encoder takes wc, n and ostate and
    yields the return value, the stores through r (offsets relative to r) and the new ostate. *)
Record funcs : Type := mkFuncs {
  f_mb : list Z -> nat -> Z -> Z -> res (Z * option Z * Z * Z);
  f_flush : option (Z -> res (Z * option Z * Z));
  f_wc : Z -> nat -> Z -> res (Z * wlog * Z);
  f_reset : option (nat -> Z -> res (Z * wlog * Z)) }.

(** reiconv_defines.h:127-141 struct conv_struct, without the loop function pointers (constant). *)
Record conv : Type := mkConv {
  iindex : Z; ifuncs : funcs; ibyteorder : Z; istate : Z;
  oindex : Z; ofuncs : funcs; ostate : Z;
  discard_ilseq : Z }.

(** Assignments to the fields cd->istate, cd->ibyteorder and cd->ostate. *)
Definition set_i (cd : conv) (ist ibo : Z) : conv :=
  mkConv (iindex cd) (ifuncs cd) ibo ist (oindex cd) (ofuncs cd) (ostate cd) (discard_ilseq cd).
Definition set_ist (cd : conv) (ist : Z) : conv := set_i cd ist (ibyteorder cd).
Definition set_ost (cd : conv) (ost : Z) : conv :=
  mkConv (iindex cd) (ifuncs cd) (ibyteorder cd) (istate cd) (oindex cd) (ofuncs cd) ost (discard_ilseq cd).

(** errno values used by lib/iconv.c and lib/loop_unicode.h. *)
Inductive errno : Type := E2BIG | EILSEQ | EINVAL | ENOMEM.
(** The size_t result of the loop functions: a count or (size_t)(-1) with errno set. *)
Inductive ret : Type := Num (n : nat) | Err (e : errno).

(** Stores into the caller's output buffer; None = store outside of it. *)
Fixpoint poke (b : list Z) (i : nat) (v : Z) : option (list Z) :=
  match b, i with
  | [], _ => None
  | _ :: b', O => Some (v :: b')
  | x :: b', S i' => match poke b' i' v with Some b'' => Some (x :: b'') | None => None end
  end.
Fixpoint pokes (b : list Z) (pos : nat) (l : wlog) : option (list Z) :=
  match l with
  | [] => Some b
  | (o, v) :: l' => match pokes b pos l' with Some b' => poke b' (Nat.add pos o) v | None => None end
  end.

(** loop_unicode.h:61-86: how many bytes are skipped after an invalid sequence, by input encoding index
    (encoding_indexes.h). *)
Definition ei_unit (i : Z) : Z :=
  if existsb (Z.eqb i) [ei_ucs4; ei_ucs4be; ei_ucs4le; ei_utf32; ei_utf32be; ei_utf32le; ei_ucs4internal; ei_ucs4swapped] then 4
  else if existsb (Z.eqb i) [ei_ucs2; ei_ucs2be; ei_ucs2le; ei_utf16; ei_utf16be; ei_utf16le; ei_ucs2internal; ei_ucs2swapped] then 2
  else 1.

(** What the loop functions leave behind: return value, unread input, output buffer contents, number of
    bytes the output pointer advanced, remaining output space, descriptor. *)
Record cres : Type := mkCres {
  r_ret : ret; r_in : list Z; r_out : list Z; r_pos : nat; r_left : nat; r_cd : conv }.

(** A call of xxx_wctomb at the output pointer (loop_unicode.h:115, 127, 181, 193). *)
Definition call_wctomb {A : Type} (cd : conv) (outb : list Z) (pos outleft : nat) (wc : Z)
    (k : Z -> list Z -> conv -> res A) : res A :=
  bind (f_wc (ofuncs cd) wc outleft (ostate cd)) (fun '(outcount, log, ost) =>
  match pokes outb pos log with
  | Some outb => k outcount outb (set_ost cd ost)
  | None => UB
  end).

(** One iteration of the while loop: either go on with a new loop state or leave the loop. *)
Inductive step : Type :=
| Next (inp outb : list Z) (pos outleft result : nat) (cd : conv)
| Stop (r : cres).

(** loop_unicode.h:147-151 label outcount_zero. *)
Definition outcount_zero (cd : conv) (inp outb : list Z) (pos outleft result : nat) (incount : Z) : res step :=
  if incount <=? Z.of_nat (length inp)
  then Ok (Next (skipn (Z.to_nat incount) inp) outb pos outleft result cd)
  else Abort.

(** loop_unicode.h:134-146 label outcount_ok. *)
Definition outcount_ok (cd : conv) (last_istate : Z) (inp outb : list Z) (pos outleft result : nat)
    (incount outcount : Z) : res step :=
  if outcount <? 0 then Ok (Stop (mkCres (Err E2BIG) inp outb pos outleft (set_ist cd last_istate)))
  else if outcount <=? Z.of_nat outleft
  then outcount_zero cd inp outb (pos + Z.to_nat outcount) (outleft - Z.to_nat outcount) result incount
  else Abort.

(** loop_unicode.h:48-151 body of the while loop. *)
Definition conv_step (cd : conv) (inp outb : list Z) (pos outleft result : nat) : res step :=
  let last_istate := istate cd in
  bind (f_mb (ifuncs cd) inp (length inp) (istate cd) (ibyteorder cd)) (fun '(incount, pwc, ist, ibo) =>
  let cd := set_i cd ist ibo in
  if incount <? 0 then
    if Z.eqb (u32 (-1 - incount) mod 2) (u32 (-1 - -1) mod 2) then
      (* Case 1: invalid input, possibly after a shift sequence *)
      let incount := u32 (-1 - incount) / 2 in
      if negb (discard_ilseq cd =? 0) then
        outcount_zero cd inp outb pos outleft result (incount + ei_unit (iindex cd))
      else
        nsub (length inp) (Z.to_nat incount) (fun _ =>
        Ok (Stop (mkCres (Err EILSEQ) (skipn (Z.to_nat incount) inp) outb pos outleft cd)))
    else if incount =? -2 then
      (* Case 2: not enough bytes available to detect anything *)
      Ok (Stop (mkCres (Err EINVAL) inp outb pos outleft cd))
    else
      (* Case 3: k bytes read, but only a shift sequence *)
      outcount_zero cd inp outb pos outleft result (u32 (-2 - incount) / 2)
  else
    (* Case 4: k bytes read, making up a wide character *)
    if Nat.eqb outleft 0 then Ok (Stop (mkCres (Err E2BIG) inp outb pos outleft (set_ist cd last_istate)))
    else
    oget pwc (fun wc =>
    call_wctomb cd outb pos outleft wc (fun outcount outb cd =>
    if negb (outcount =? -1) then outcount_ok cd last_istate inp outb pos outleft result incount outcount
    else if Z.shiftr wc 7 =? Z.shiftr 0xe0000 7 then outcount_zero cd inp outb pos outleft result incount
    else
    let result := S result in
    if negb (discard_ilseq cd =? 0) then outcount_ok cd last_istate inp outb pos outleft result incount 0
    else
    call_wctomb cd outb pos outleft 0xfffd (fun outcount outb cd =>
    if negb (outcount =? -1) then outcount_ok cd last_istate inp outb pos outleft result incount outcount
    else Ok (Stop (mkCres (Err EILSEQ) inp outb pos outleft (set_ist cd last_istate))))))).

(** loop_unicode.h:46-157 the while loop.  The fuel bounds the number of iterations. *)
Fixpoint conv_loop (fuel : nat) (cd : conv) (inp outb : list Z) (pos outleft result : nat) {struct fuel} : res cres :=
  match inp with
  | [] => Ok (mkCres (Num result) inp outb pos outleft cd)
  | _ :: _ =>
    match fuel with
    | O => NoFuel
    | S fuel =>
      bind (conv_step cd inp outb pos outleft result) (fun st =>
      match st with
      | Next inp outb pos outleft result cd => conv_loop fuel cd inp outb pos outleft result
      | Stop r => Ok r
      end)
    end
  end.

(** loop_unicode.h:37-158 unicode_loop_convert.  inp is what *inbuf / *inbytesleft describe; outb is the
    memory at *outbuf and outleft is *outbytesleft. *)
Definition loop_convert (cd : conv) (inp outb : list Z) (outleft : nat) : res cres :=
  conv_loop (2 * length inp + 1) cd inp outb 0 outleft 0.

(** loop_unicode.h:163-169 unicode_loop_reset with outbuf == NULL or *outbuf == NULL. *)
Definition loop_reset_null (cd : conv) : conv := set_ost (set_ist cd 0) 0.

(** loop_unicode.h:215-232: the second half of unicode_loop_reset, at output position pos. *)
Definition loop_reset_tail (cd : conv) (outb : list Z) (pos outleft result : nat) : res cres :=
  match f_reset (ofuncs cd) with
  | None => Ok (mkCres (Num result) [] outb pos outleft (loop_reset_null cd))
  | Some rst =>
    bind (rst outleft (ostate cd)) (fun '(outcount, log, ost) =>
    match pokes outb pos log with
    | None => UB
    | Some outb =>
      let cd := set_ost cd ost in
      if outcount <? 0 then Ok (mkCres (Err E2BIG) [] outb pos outleft cd)
      else if outcount <=? Z.of_nat outleft
      then Ok (mkCres (Num result) [] outb (pos + Z.to_nat outcount) (outleft - Z.to_nat outcount) (loop_reset_null cd))
      else Abort
    end)
  end.

(** loop_unicode.h:199-212 label outcount_ok of unicode_loop_reset. *)
Definition reset_outcount_ok (cd : conv) (last_istate : Z) (outb : list Z) (outleft result : nat) (outcount : Z) : res cres :=
  if outcount <? 0 then Ok (mkCres (Err E2BIG) [] outb 0 outleft (set_ist cd last_istate))
  else if outcount <=? Z.of_nat outleft
  then loop_reset_tail cd outb (Z.to_nat outcount) (outleft - Z.to_nat outcount) result
  else Abort.

(** loop_unicode.h:160-234 unicode_loop_reset with a non-null *outbuf. *)
Definition loop_reset (cd : conv) (outb : list Z) (outleft : nat) : res cres :=
  match f_flush (ifuncs cd) with
  | None => loop_reset_tail cd outb 0 outleft 0
  | Some flush =>
    let last_istate := istate cd in
    bind (flush (istate cd)) (fun '(b, pwc, ist) =>
    let cd := set_ist cd ist in
    if negb (b =? 0) then
      oget pwc (fun wc =>
      call_wctomb cd outb 0 outleft wc (fun outcount outb cd =>
      if negb (outcount =? -1) then reset_outcount_ok cd last_istate outb outleft 0 outcount
      else if Z.shiftr wc 7 =? Z.shiftr 0xe0000 7 then loop_reset_tail cd outb 0 outleft 0
      else
      if negb (discard_ilseq cd =? 0) then reset_outcount_ok cd last_istate outb outleft 1 0
      else
      call_wctomb cd outb 0 outleft 0xfffd (fun outcount outb cd =>
      if negb (outcount =? -1) then reset_outcount_ok cd last_istate outb outleft 1 outcount
      else Ok (mkCres (Err EILSEQ) [] outb 0 outleft (set_ist cd last_istate)))))
    else loop_reset_tail cd outb 0 outleft 0)
  end.
