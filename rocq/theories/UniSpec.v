(** The encoding forms of Unicode, written down from the standards (Unicode 15 chapter 3.9, RFC 3629, RFC 2781,
    ISO 10646) and independent of the code: which bytes stand for which code point. *)
From Coq Require Import ZArith List Bool.
Import ListNotations.
Open Scope Z_scope.

(** Unicode scalar values: code points up to 10FFFF except the surrogates. *)
Definition scalar (c : Z) : bool := (0 <=? c) && (c <? 0xd800) || (0xe000 <=? c) && (c <=? 0x10ffff).

(** An encoding form: the bytes of a character, None if it has none. *)
Definition form := Z -> option (list Z).

Definition utf8_bytes (c : Z) : list Z :=
  if c <? 0x80 then [c]
  else if c <? 0x800 then [0xc0 + c / 64; 0x80 + c mod 64]
  else if c <? 0x10000 then [0xe0 + c / 4096; 0x80 + c / 64 mod 64; 0x80 + c mod 64]
  else [0xf0 + c / 262144; 0x80 + c / 4096 mod 64; 0x80 + c / 64 mod 64; 0x80 + c mod 64].
Definition utf8_form : form := fun c => if scalar c then Some (utf8_bytes c) else None.

Definition be16 (u : Z) : list Z := [u / 256; u mod 256].
Definition le16 (u : Z) : list Z := [u mod 256; u / 256].
Definition be32 (u : Z) : list Z := [u / 16777216; u / 65536 mod 256; u / 256 mod 256; u mod 256].
Definition le32 (u : Z) : list Z := [u mod 256; u / 256 mod 256; u / 65536 mod 256; u / 16777216].

(** Code units of UTF-16: one unit below 10000, otherwise a high and a low surrogate. *)
Definition utf16_units (c : Z) : list Z :=
  if c <? 0x10000 then [c] else [0xd800 + (c - 0x10000) / 1024; 0xdc00 + (c - 0x10000) mod 1024].
Definition utf16be_form : form := fun c => if scalar c then Some (concat (map be16 (utf16_units c))) else None.
Definition utf16le_form : form := fun c => if scalar c then Some (concat (map le16 (utf16_units c))) else None.
Definition utf32be_form : form := fun c => if scalar c then Some (be32 c) else None.
Definition utf32le_form : form := fun c => if scalar c then Some (le32 c) else None.

(** UCS-2: one 16-bit unit, no surrogates.  UCS-4: one 32-bit unit, no restriction. *)
Definition ucs2be_form : form := fun c => if scalar c && (c <? 0x10000) then Some (be16 c) else None.
Definition ucs2le_form : form := fun c => if scalar c && (c <? 0x10000) then Some (le16 c) else None.
Definition ucs4be_form : form := fun c => if (0 <=? c) && (c <? 0x100000000) then Some (be32 c) else None.
Definition ucs4le_form : form := fun c => if (0 <=? c) && (c <? 0x100000000) then Some (le32 c) else None.

(** ASCII and ISO-8859-1. *)
Definition ascii_form : form := fun c => if (0 <=? c) && (c <? 0x80) then Some [c] else None.
Definition latin1_form : form := fun c => if (0 <=? c) && (c <? 0x100) then Some [c] else None.

(** The bytes of a text, None if a character has none. *)
Fixpoint text (F : form) (cs : list Z) : option (list Z) :=
  match cs with
  | [] => Some []
  | c :: cs' => match F c, text F cs' with Some a, Some b => Some (a ++ b) | _, _ => None end
  end.
