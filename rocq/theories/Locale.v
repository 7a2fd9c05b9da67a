(** Model of lib/locale_charset.c with lib/localecharset/lc_types.h, lc_utils.h, locale_table.h and windows_getcp.h.

    A C string is the list of its bytes before the NUL, a pointer that may be NULL an option.  What the platform
    answers (getenv, setlocale, GetACP or GetConsoleOutputCP, nl_langinfo) is a parameter. *)
From Coq Require Import ZArith List Bool String.
From Verif Require Import Base Loop Names LocaleTab.
Import ListNotations.
Open Scope Z_scope.

(** lc_utils.h:39 IS_INVALID_LOCALE: NULL or the empty string. *)
Definition is_invalid_locale (l : option (list Z)) : bool :=
  match l with None => true | Some [] => true | Some _ => false end.

(** lc_utils.h:41-57 GET_LOCALE: env is getenv, by the name of the variable; current is setlocale (LC_CTYPE, NULL). *)
Definition get_locale (env : string -> option (list Z)) (current : option (list Z)) : option (list Z) :=
  let locale := env "LC_ALL"%string in
  if is_invalid_locale locale then
    let locale := env "LC_CTYPE"%string in
    if is_invalid_locale locale then
      let locale := env "LANG"%string in
      if is_invalid_locale locale then current else locale
    else locale
  else locale.

(** strcmp on two strings; only the sign of C's result is used, so it is the comparison of the first byte in
    which they differ. *)
Fixpoint strcmp (a b : list Z) : comparison :=
  match a, b with
  | [], [] => Eq
  | [], _ :: _ => Lt
  | _ :: _, [] => Gt
  | c :: a, d :: b => match c ?= d with Eq => strcmp a b | r => r end
  end.

(** strchr (s, c), as the string that starts there. *)
Fixpoint strchr (s : list Z) (c : Z) : option (list Z) :=
  match s with [] => None | d :: s' => if d =? c then Some s else strchr s' c end.

(** locale_charset.c:91-116 the binary search; fuel bounds the number of rounds.  Some (Some s) =
    the goto done_table_lookup with codeset = s, Some None = the loop ends.  A read outside the table is UB. *)
Fixpoint table_search (fuel : nat) (table : list (list Z * list Z)) (locale : list Z) (lo hi : nat)
  : res (option (list Z)) :=
  match fuel with
  | O => NoFuel
  | S fuel =>
    if Nat.ltb lo hi then
      let mid := Nat.div2 (hi + lo) in
      match nth_error table mid with
      | None => UB
      | Some (name, canonical) =>
        match strcmp name locale with
        | Lt => table_search fuel table locale (mid + 1) hi
        | Gt => table_search fuel table locale lo mid
        | Eq => Ok (Some canonical)
        end
      end
    else Ok None
  end.
(** The table as bytes. *)
Definition table_bytes : list (list Z * list Z) := map (fun p => (codes (fst p), codes (snd p))) locale_table.

(** lc_types.h:27 REICONV_DEFAULT_CHARSET. *)
Definition default_charset : list Z := codes "UTF-8".

(** locale_charset.c:86-128 the rest of locale_charset on a platform without nl_langinfo: the locale, the table (if
    there is one for the platform, locale_table_defined), the part behind the dot. *)
Definition charset_of_locale (with_table : bool) (locale : list Z) : res (list Z) :=
  bind (if with_table then table_search (S (List.length table_bytes)) table_bytes locale 0 (List.length table_bytes) else Ok None)
  (fun codeset =>
   match codeset with
   | Some codeset => Ok codeset
   | None => match strchr locale 0x2e with
     | None => Ok default_charset
     | Some p => Ok (skipn 1 p)
     end
   end).
Definition locale_charset_env (with_table : bool) (env : string -> option (list Z)) (current : option (list Z)) : res (list Z) :=
  match get_locale env current with
  | None => UB
  | Some locale => charset_of_locale with_table locale
  end.

(** windows_getcp.h:36-345 windows_getcp; cp is what GetACP or GetConsoleOutputCP returns. *)
Fixpoint case_in (l : list (Z * string)) (cp : Z) : string :=
  match l with [] => windows_default | (c, s) :: l => if c =? cp then s else case_in l cp end.
Definition windows_getcp (cp : Z) : list Z := codes (case_in windows_cases cp).

(** locale_charset.c:62-144 locale_charset.  The preprocessor selects one branch. *)
Inductive platform : Type :=
| windows (cp : Z)                 (* :64-66 IS_WINDOWS_NATIVE, and :82-84 Cygwin without nl_langinfo *)
| always_utf8                      (* :68-74 Mac OS X, BeOS, Haiku, Android *)
| langinfo (codeset : list Z)      (* :78-80 HAVE_LANGINFO_CODESET: what nl_langinfo (CODESET) returns *)
| environment (with_table : bool) (env : string -> option (list Z)) (current : option (list Z)).
(** IS_DARWIN7 (:134-141) implies IS_MACOSX, so that code is never reached. *)
Definition locale_charset (p : platform) : res (list Z) :=
  match p with
  | windows cp => Ok (windows_getcp cp)
  | always_utf8 => Ok default_charset
  | langinfo codeset => Ok codeset
  | environment with_table env current => locale_charset_env with_table env current
  end.
