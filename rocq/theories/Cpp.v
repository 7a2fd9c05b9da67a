(** Model of lib/reiconv.cpp: the C++ function reiconv::convert. *)
From Coq Require Import ZArith List Bool.
From Verif Require Import Base Loop Encodings Api.
Import ListNotations.
Open Scope Z_scope.

(** How the call ends: it returns a string or throws. *)
Inductive cpp_end : Type :=
| Returned (s : list Z)
| System_error (e : errno)        (* std::system_error *)
| Length_error                    (* std::length_error: a string longer than max_size() was requested *)
| Bad_alloc.                      (* std::bad_alloc *)
(** x_leaked: descriptors that were opened and not closed. *)
Record cpp_res : Type := mkCpp { x_end : cpp_end; x_leaked : nat }.

(** reiconv.cpp:52-73 reiconv::convert.  mem: malloc of the descriptor succeeds; str: there is memory for the
    result string.  result_size's (size_t)(-1) is used as a length; std::string(SIZE_MAX, 0) throws
    std::length_error.  The string's memory includes its terminating NUL.  errno is taken as left by
    reiconv_convert_static_size (free is assumed not to change it). *)
Definition cpp_convert (mem str : bool) (from to : Z) (input tmp : list Z) (flag : Z) : res cpp_res :=
  bind (reiconv_open_from_index mem from to flag) (fun x =>
  match x with
  | inr e => Ok (mkCpp (System_error e) 0)
  | inl cd =>
    bind (reiconv_result_size cd input tmp) (fun z =>
    match s_ret z with
    | Err _ => Ok (mkCpp Length_error 1)
    | Num outlen =>
      if str then
        bind (reiconv_convert_static_size (s_cd z) input (Some (repeat 0 outlen ++ [0])) outlen) (fun r =>
        match st_ret r with
        | Err e => Ok (mkCpp (System_error e) 0)
        | Num _ => Ok (mkCpp (Returned (firstn outlen (match st_out r with Some b => b | None => [] end))) 0)
        end)
      else Ok (mkCpp Bad_alloc 1)
    end)
  end).
