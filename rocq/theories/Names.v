(** Model of the functions of lib/iconv.c that select encodings: by name, by codepage, reiconv_open; and of
    lib/generated/aliases.h.

    A C string argument is the list of its bytes (1..255) before the terminating NUL.  Memory of a local char
    array is a list of cells; its initial contents are indeterminate and therefore a parameter. *)
From Coq Require Import ZArith List Bool String Ascii.
From Verif Require Import Base Indexes Loop Encodings AliasTab PubIdx Api.
Import ListNotations.
Open Scope Z_scope.

(** The bytes of a string literal of the C sources (without the NUL). *)
Definition codes (s : string) : list Z := map (fun c => Z.of_N (N_of_ascii c)) (list_ascii_of_string s).

(** iconv.c:51-73 reiconv_name_canonicalize: writes into outbuf and returns the length.  bp is an index into
    outbuf.  For '-' and '_' C steps bp back and forth; the pointer outbuf - 1 that arises when the name starts
    with one of them is not counted as undefined behaviour. *)
Fixpoint canon_loop (name outbuf : list Z) (bp : nat) : res (nat * list Z) :=
  match name with
  | [] => match poke outbuf bp 0 with Some b => Ok (bp, b) | None => UB end
  | c :: name =>
    let c := if (c >=? 0x61) && (c <=? 0x7a) then c - (0x61 - 0x41) else c in
    if (c =? 0x2d) || (c =? 0x5f) then canon_loop name outbuf bp
    else match poke outbuf bp c with Some b => canon_loop name b (S bp) | None => UB end
  end.
Definition reiconv_name_canonicalize (name outbuf : list Z) : res (nat * list Z) := canon_loop name outbuf 0.

(** aliases.h:50-105 aliases_hash: hval += asso_values[(unsigned char)str[i] + off], falling through from i = 9
    (or from i = len - 1 if len <= 9) down to i = 0. *)
Fixpoint hash_fall (str : list Z) (ps : list (nat * Z)) (hval : Z) : res Z :=
  match ps with
  | [] => Ok hval
  | (i, off) :: ps => rd str i (fun c => tget asso_values (c + off) (fun v => hash_fall str ps (u32 (hval + v))))
  end.
Definition hash_cases : list (nat * Z) :=
  [(9%nat, 0); (8%nat, 0); (7%nat, 0); (6%nat, 0); (5%nat, 4); (4%nat, 0); (3%nat, 0); (2%nat, 0); (1%nat, 2); (0%nat, 0)].
Definition aliases_hash (str : list Z) (len : nat) : res Z :=
  let hval := u32 (Z.of_nat len) in
  let start := if (1 <=? hval) && (hval <=? 9) then Nat.sub 10 (Z.to_nat hval) else 0%nat in
  bind (hash_fall str (skipn start hash_cases) hval) (fun hval =>
  nsub len 1 (fun last => rd str last (fun c => tget asso_values c (fun v => Ok (u32 (hval + v)))))).

(** aliases.h:1795-4209 aliases[key]: None = the slot holds {-1}, otherwise the string at that stringpool offset
    and the encoding index. *)
Fixpoint slot_in (l : list (Z * string * Z)) (key : Z) : option (string * Z) :=
  match l with [] => None | (k, s, e) :: l => if k =? key then Some (s, e) else slot_in l key end.
Definition alias_at (key : Z) : option (string * Z) := slot_in alias_slots key.

(** strcmp (mem, s) == 0, for memory mem and a literal s. *)
Fixpoint strcmp_eq (mem s : list Z) : res bool :=
  match mem with
  | [] => UB
  | c :: mem => match s with
    | [] => Ok (c =? 0)
    | d :: s => if c =? d then strcmp_eq mem s else Ok false
    end
  end.

(** aliases.h:4211-4231 aliases_lookup; the result is the encoding_index of the entry found. *)
Definition aliases_lookup (str : list Z) (len : nat) : res (option Z) :=
  if (Z.of_nat len <=? MAX_WORD_LENGTH) && (Z.of_nat len >=? MIN_WORD_LENGTH) then
    bind (aliases_hash str len) (fun key =>
    if key <=? MAX_HASH_VALUE then
      match alias_at key with
      | None => Ok None
      | Some (s, e) =>
        rd str 0 (fun c =>
        match codes s with
        | [] => if c =? 0 then UB else Ok None
        | d :: s' =>
          if c =? d then bind (strcmp_eq (skipn 1 str) s') (fun eq => if eq then Ok (Some e) else Ok None)
          else Ok None
        end)
      end
    else Ok None)
  else Ok None.

(** iconv.c:77, 147, 148: char buf[MAX_WORD_LENGTH + 2]. *)
Definition NAMEBUF : nat := Z.to_nat (MAX_WORD_LENGTH + 2).

(** iconv.c:75-82 reiconv_lookup_from_name; buf is the local array. *)
Definition reiconv_lookup_from_name (buf encoding : list Z) : res Z :=
  bind (reiconv_name_canonicalize encoding buf) (fun '(buf_len, buf) =>
  bind (aliases_lookup buf buf_len) (fun ap => Ok (match ap with Some e => e | None => -1 end))).

(** codepage_to_ei.h:16-18 codepage_to_eindex[]: designated initialisers, the last one for an index counts, all
    other elements are 0; the array ends with the largest index. *)
Definition codepage_count : Z := fold_left Z.max (map fst declared_codepages) (-1) + 1.
Fixpoint cp_in (l : list (Z * Z)) (cp acc : Z) : Z :=
  match l with [] => acc | (c, e) :: l => cp_in l cp (if c =? cp then e + 1 else acc) end.
Definition codepage_to_eindex {A : Type} (cp : Z) (k : Z -> res A) : res A :=
  if (0 <=? cp) && (cp <? codepage_count) then k (cp_in declared_codepages cp 0) else UB.
(** iconv.c:84-87 reiconv_lookup_from_codepage. *)
Definition reiconv_lookup_from_codepage (codepage : Z) : res Z :=
  codepage_to_eindex codepage (fun e => Ok (e - 1)).

(** iconv.c:119-130 reiconv_open_from_codepage. *)
Definition reiconv_open_from_codepage (mem : bool) (fromcode tocode flags : Z) : res (conv + errno) :=
  bind (reiconv_lookup_from_codepage fromcode) (fun from_index =>
  bind (reiconv_lookup_from_codepage tocode) (fun to_index =>
  if (from_index =? -1) || (to_index =? -1) then Ok (inr EINVAL)
  else reiconv_open_from_index mem from_index to_index flags)).

(** iconv.c:132-143 reiconv_open_from_name; b1 and b2 are the local arrays of the two lookups. *)
Definition reiconv_open_from_name (mem : bool) (b1 b2 fromcode tocode : list Z) (flags : Z) : res (conv + errno) :=
  bind (reiconv_lookup_from_name b1 fromcode) (fun from_index =>
  bind (reiconv_lookup_from_name b2 tocode) (fun to_index =>
  if (from_index =? -1) || (to_index =? -1) then Ok (inr EINVAL)
  else reiconv_open_from_index mem from_index to_index flags)).

(** memcmp (mem, pat, n) == 0: all n bytes of both must be readable. *)
Fixpoint memcmp_eq (mem pat : list Z) (n : nat) {struct n} : res bool :=
  match n with
  | O => Ok true
  | S n => match mem, pat with
    | c :: mem, d :: pat => bind (memcmp_eq mem pat n) (fun r => Ok ((c =? d) && r))
    | _, _ => UB
    end
  end.
(** The array "/IGNORE" with its NUL. *)
Definition IGNORE : list Z := codes "/IGNORE" ++ [0].

(** iconv.c:155-165 (cmp = 8) and :167-177 (cmp = 7) the scan for '/'; todo = len - i. *)
Fixpoint scan_slash (cmp todo i len : nat) (buf : list Z) (flag : Z) : res (list Z * Z) :=
  match todo with
  | O => Ok (buf, flag)
  | S todo =>
    rd buf i (fun c =>
    if c =? 0x2f then
      match poke buf i 0 with
      | None => UB
      | Some buf =>
        if Nat.ltb (i + 7) len then
          bind (memcmp_eq (skipn (i + 1) buf) IGNORE cmp) (fun eq =>
          scan_slash cmp todo (S i) len buf (if eq then Z.lor flag REICONV_DISCARD_ILSEQ else flag))
        else scan_slash cmp todo (S i) len buf flag
      end
    else scan_slash cmp todo (S i) len buf flag)
  end.

(** The C string at the start of mem: the bytes before the first NUL (UB if there is none). *)
Fixpoint cstr {A : Type} (mem : list Z) (k : list Z -> res A) : res A :=
  match mem with [] => UB | c :: mem => if c =? 0 then k [] else cstr mem (fun s => k (c :: s)) end.

(** iconv.c:145-188 reiconv_open; b k (k < 4) are the local arrays fromcode_buf, tocode_buf and those of the two
    lookups. *)
Definition reiconv_open (mem : bool) (b : nat -> list Z) (tocode fromcode : list Z) : res (conv + errno) :=
  bind (reiconv_name_canonicalize fromcode (b 0%nat)) (fun '(fromcode_len, fromcode_buf) =>
  bind (reiconv_name_canonicalize tocode (b 1%nat)) (fun '(tocode_len, tocode_buf) =>
  bind (scan_slash 8 fromcode_len 0 fromcode_len fromcode_buf REICONV_NO_FLAGS) (fun '(fromcode_buf, flag) =>
  bind (scan_slash 7 tocode_len 0 tocode_len tocode_buf flag) (fun '(tocode_buf, flag) =>
  cstr fromcode_buf (fun from_name => bind (reiconv_lookup_from_name (b 2%nat) from_name) (fun from_index =>
  cstr tocode_buf (fun to_name => bind (reiconv_lookup_from_name (b 3%nat) to_name) (fun to_index =>
  if (from_index =? -1) || (to_index =? -1) then Ok (inr EINVAL)
  else reiconv_open_from_index mem from_index to_index flag)))))))).

(** reiconv.cpp:31-48 the constructors of reiconv::Encoding: the index, or std::invalid_argument. *)
Inductive cpp_enc : Type := Index (i : Z) | Invalid_argument.
Definition Encoding_name (buf name : list Z) : res cpp_enc :=
  bind (reiconv_lookup_from_name buf name) (fun i => Ok (if i =? -1 then Invalid_argument else Index i)).
Definition Encoding_codepage (codepage : Z) : res cpp_enc :=
  bind (reiconv_lookup_from_codepage codepage) (fun i => Ok (if i =? -1 then Invalid_argument else Index i)).
