(** Model of lib/iconv.c: the public C functions that use a descriptor. *)
From Coq Require Import ZArith List Bool.
From Verif Require Import Base Indexes Loop Encodings.
Import ListNotations.
Open Scope Z_scope.

(** include/cppp/reiconv.h.in:107-118 enum ConvertFlag. *)
Definition REICONV_NO_FLAGS : Z := 0.
Definition REICONV_DISCARD_ILSEQ : Z := 1.

(** An index into all_encodings[] (all_encodings.h:35-37); None = read outside of the array. *)
Definition encoding_at (i : Z) : option funcs :=
  if i <? 0 then None else nth_error all_encodings (Z.to_nat i).

(** iconv.c:89-117 reiconv_open_from_index.  mem says whether malloc succeeds; the result is the descriptor or
    (reiconv_t)(-1) with errno. *)
Definition reiconv_open_from_index (mem : bool) (fromcode tocode flags : Z) : res (conv + errno) :=
  if mem then
    match encoding_at fromcode, encoding_at tocode with
    | Some fi, Some fo => Ok (inl (mkConv fromcode fi 0 0 tocode fo 0 (Z.land flags REICONV_DISCARD_ILSEQ)))
    | _, _ => UB
    end
  else Ok (inr ENOMEM).

(** iconv.c:190-197 reiconv_iconv.
    inp = None: inbuf or *inbuf is NULL.  outp = None: outbuf or *outbuf is NULL; otherwise outp holds the
    memory at *outbuf and outleft is *outbytesleft.  Converting to a null *outbuf dereferences it as soon as
    there is something to write; here it is memory of size 0. *)
Definition reiconv_iconv (cd : conv) (inp : option (list Z)) (outp : option (list Z)) (outleft : nat) : res cres :=
  match inp with
  | None =>
    match outp with
    | None => Ok (mkCres (Num 0) [] [] 0 outleft (loop_reset_null cd))
    | Some outb => loop_reset cd outb outleft
    end
  | Some s => loop_convert cd s (match outp with Some outb => outb | None => [] end) outleft
  end.

(** iconv.c:47 TEMP_BUFFER_SIZE. *)
Definition TEMP_BUFFER_SIZE : nat := 4096.

(** Result of the functions below: return value (Err = -1 with errno) and the descriptor afterwards. *)
Record sres : Type := mkSres { s_ret : ret; s_cd : conv }.

(** iconv.c:211-225 the while loop of reiconv_result_size.  tmp is tmpbuf (its initial contents are
    indeterminate, so they are a parameter); fuel bounds the number of iterations. *)
Fixpoint size_loop (fuel : nat) (cd : conv) (inp tmp : list Z) (count : nat) : res (nat * list Z * conv + sres) :=
  match inp with
  | [] => Ok (inl (count, tmp, cd))
  | _ :: _ =>
    match fuel with
    | O => NoFuel
    | S fuel =>
      bind (reiconv_iconv cd (Some inp) (Some tmp) TEMP_BUFFER_SIZE) (fun r =>
      match r_ret r with
      | Err EINVAL => Ok (inr (mkSres (Err EILSEQ) (r_cd r)))
      | Err EILSEQ => Ok (inr (mkSres (Err EILSEQ) (r_cd r)))
      | Err ENOMEM => Ok (inr (mkSres (Err ENOMEM) (r_cd r)))
      | _ => size_loop fuel (r_cd r) (r_in r) (r_out r) (count + r_pos r)
      end)
    end
  end.

(** iconv.c:205-237 reiconv_result_size. *)
Definition reiconv_result_size (cd : conv) (start tmp : list Z) : res sres :=
  bind (size_loop (2 * length start + 2) cd start tmp 0) (fun x =>
  match x with
  | inr r => Ok r
  | inl (count, tmp, cd) =>
    bind (reiconv_iconv cd None (Some tmp) TEMP_BUFFER_SIZE) (fun r =>
    bind (reiconv_iconv (r_cd r) None None 0) (fun r2 =>
    match r_ret r with
    | Err e => Ok (mkSres (Err e) (r_cd r2))
    | Num _ => Ok (mkSres (Num (count + r_pos r)) (r_cd r2))
    end))
  end).

(** Memory that a pointer outptr walks through: pos bytes of it have been passed. *)
Definition at_pos (outp : option (list Z)) (pos : nat) : option (list Z) :=
  match outp with None => None | Some b => Some (skipn pos b) end.
Definition put_back (outp : option (list Z)) (pos : nat) (b : list Z) : option (list Z) :=
  match outp with None => None | Some b0 => Some (firstn pos b0 ++ b) end.

(** Result of reiconv_convert_static_size: return value (Num 0 or Err = -1 with errno), the output memory, the
    descriptor. *)
Record stres : Type := mkStres { st_ret : ret; st_out : option (list Z); st_cd : conv }.

(** iconv.c:246-260 the while loop of reiconv_convert_static_size; inr = early return. *)
Fixpoint static_loop (fuel : nat) (cd : conv) (inp : list Z) (outp : option (list Z)) (pos outsize : nat)
    : res (option (list Z) * nat * nat * conv + stres) :=
  match inp with
  | [] => Ok (inl (outp, pos, outsize, cd))
  | _ :: _ =>
    match fuel with
    | O => NoFuel
    | S fuel =>
      bind (reiconv_iconv cd (Some inp) (at_pos outp pos) outsize) (fun r =>
      let outp' := put_back outp pos (r_out r) in
      match r_ret r with
      | Num _ => static_loop fuel (r_cd r) (r_in r) outp' (pos + r_pos r) (r_left r)
      | Err EINVAL => Ok (inl (outp', (pos + r_pos r)%nat, r_left r, r_cd r))
      | Err e => Ok (inr (mkStres (Err e) outp' (r_cd r)))
      end)
    end
  end.

(** iconv.c:239-266 reiconv_convert_static_size.  outp = None: output_data is NULL. *)
Definition reiconv_convert_static_size (cd : conv) (input : list Z) (outp : option (list Z)) (output_length : nat)
    : res stres :=
  bind (static_loop (length input) cd input outp 0 output_length) (fun x =>
  match x with
  | inr r => Ok r
  | inl (outp, pos, outsize, cd) =>
    bind (reiconv_iconv cd None (at_pos outp pos) outsize) (fun r =>
    let outp' := put_back outp pos (r_out r) in
    match r_ret r with
    | Err e => Ok (mkStres (Err e) outp' (r_cd r))
    | Num _ => Ok (mkStres (Num 0) outp' (r_cd r))
    end)
  end).

(** What the caller of reiconv_convert passes as output_data_ptr: NULL, or a pointer to a char* variable that
    is NULL or points to a block obtained from malloc. *)
Inductive optr : Type := PNull | PVar (block : option (list Z)).
(** Result of reiconv_convert: return value, value stored in *output_length_ptr (None = not stored), the
    pointer afterwards, the descriptor.  heap: what the call took from and gave back to the allocator. *)
Record cvres : Type := mkCv { c_ret : ret; c_len : option nat; c_ptr : optr; c_cd : conv }.

(** iconv.c:268-299 reiconv_convert.  lenp: output_length_ptr is not NULL.  alloc gives the result of
    malloc(n)/realloc(p, n): None = NULL, Some b = a block of n bytes with indeterminate contents. *)
Definition reiconv_convert (alloc : nat -> option (list Z)) (cd : conv) (input tmp : list Z) (outptr : optr) (lenp : bool)
    : res cvres :=
  bind (reiconv_result_size cd input tmp) (fun z =>
  match s_ret z with
  | Err e => Ok (mkCv (Err e) None outptr (s_cd z))
  | Num n =>
    let len := if lenp then Some n else None in
    match outptr with
    | PNull => Ok (mkCv (Err EINVAL) len PNull (s_cd z))
    | PVar _ =>
      bind (reiconv_convert_static_size (s_cd z) input (alloc n) n) (fun r =>
      match st_ret r with
      | Err e => Ok (mkCv (Err e) len (PVar None) (st_cd r))
      | Num _ => Ok (mkCv (Num 0) len (PVar (st_out r)) (st_cd r))
      end)
    end
  end).
