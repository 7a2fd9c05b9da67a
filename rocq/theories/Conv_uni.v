(** GENERATED by tools/gen.py from /repo/lib/converters; do not edit.
    Converter functions, one definition per basic block that is reached from several places. *)
From Coq Require Import ZArith List Bool.
From Verif Require Import Base.
Import ListNotations.
Open Scope Z_scope.

(* lib/converters/ascii.h:30-39 ascii_mbtowc *)
Definition ascii_mbtowc (s : list Z) (n : nat) : res (Z * option Z) :=
  let pwc := (None : option Z) in
  rd s 0%nat (fun c =>
  if (c <? 0x80) then
   let pwc := Some c in
   Ok (1, pwc)
  else
   Ok ((-1), pwc)).

(* lib/converters/ascii.h:41-49 ascii_wctomb *)
Definition ascii_wctomb (wc : Z) (n : nat) : res (Z * wlog) :=
  let r := ([] : wlog) in
  if (wc <? 0x80) then
   let r := wr r 0%nat wc in
   Ok (1, r)
  else
   Ok ((-1), r).

(* lib/converters/c99.h:37-109 c99_mbtowc *)
Fixpoint c99_mbtowc_loop (fuel : nat) (i : Z) (wc : Z) (s : list Z) (n : nat) (pwc : option Z) {struct fuel} : res (Z * option Z) :=
  match fuel with O => NoFuel | S fuel =>
  if (i <? 6) then
   if (Nat.leb n (Z.to_nat i)) then
    Ok ((-2), pwc)
   else
    rd s (Z.to_nat i) (fun c =>
    if ((c >=? 0x30) &&& (c <=? 0x39)) then
     let c := (c - 0x30) in
     c99_mbtowc_j fuel c i wc s n pwc
    else
     if ((c >=? 0x41) &&& (c <=? 0x5a)) then
      let c := (c - 0x37) in
      c99_mbtowc_j fuel c i wc s n pwc
     else
      if ((c >=? 0x61) &&& (c <=? 0x7a)) then
       let c := (c - 0x57) in
       c99_mbtowc_j fuel c i wc s n pwc
      else
       let pwc := Some 0x5c in
       Ok (1, pwc))
  else
   if (((((wc >=? 0xa0) &&& (negb ((wc >=? 0xd800) &&& (wc <? 0xe000)))) ||| (wc =? 0x24)) ||| (wc =? 0x40)) ||| (wc =? 0x60)) then
    let pwc := Some wc in
    Ok (6, pwc)
   else
    Ok ((-1), pwc)
  end
with c99_mbtowc_j (fuel : nat) (c : Z) (i : Z) (wc : Z) (s : list Z) (n : nat) (pwc : option Z) {struct fuel} : res (Z * option Z) :=
  match fuel with O => NoFuel | S fuel =>
  let wc := (Z.lor wc (Z.shiftl c (4 * (5 - i)))) in
  let i := (i + 1) in
  c99_mbtowc_loop fuel i wc s n pwc
  end.
(* lib/converters/c99.h:37-109 c99_mbtowc *)
Fixpoint c99_mbtowc_loop2 (fuel : nat) (i : Z) (wc : Z) (s : list Z) (n : nat) (pwc : option Z) {struct fuel} : res (Z * option Z) :=
  match fuel with O => NoFuel | S fuel =>
  if (i <? 0xa) then
   if (Nat.leb n (Z.to_nat i)) then
    Ok ((-2), pwc)
   else
    rd s (Z.to_nat i) (fun c =>
    if ((c >=? 0x30) &&& (c <=? 0x39)) then
     let c := (c - 0x30) in
     c99_mbtowc_j2 fuel c i wc s n pwc
    else
     if ((c >=? 0x41) &&& (c <=? 0x5a)) then
      let c := (c - 0x37) in
      c99_mbtowc_j2 fuel c i wc s n pwc
     else
      if ((c >=? 0x61) &&& (c <=? 0x7a)) then
       let c := (c - 0x57) in
       c99_mbtowc_j2 fuel c i wc s n pwc
      else
       let pwc := Some 0x5c in
       Ok (1, pwc))
  else
   if (((((wc >=? 0xa0) &&& (negb ((wc >=? 0xd800) &&& (wc <? 0xe000)))) ||| (wc =? 0x24)) ||| (wc =? 0x40)) ||| (wc =? 0x60)) then
    let pwc := Some wc in
    Ok (0xa, pwc)
   else
    Ok ((-1), pwc)
  end
with c99_mbtowc_j2 (fuel : nat) (c : Z) (i : Z) (wc : Z) (s : list Z) (n : nat) (pwc : option Z) {struct fuel} : res (Z * option Z) :=
  match fuel with O => NoFuel | S fuel =>
  let wc := (Z.lor wc (u32 (Z.shiftl c (4 * (9 - i))))) in
  let i := (i + 1) in
  c99_mbtowc_loop2 fuel i wc s n pwc
  end.
(* lib/converters/c99.h:37-109 c99_mbtowc *)
Definition c99_mbtowc (s : list Z) (n : nat) : res (Z * option Z) :=
  let pwc := (None : option Z) in
  rd s 0%nat (fun c =>
  if (c <? 0xa0) then
   if (negb (c =? 0x5c)) then
    let pwc := Some c in
    Ok (1, pwc)
   else
    if (Nat.ltb n 2%nat) then
     Ok ((-2), pwc)
    else
     rd s 1%nat (fun c =>
     if (c =? 0x75) then
      let wc := 0 in
      let i := 2 in
      c99_mbtowc_loop 64%nat i wc s n pwc
     else
      if (c =? 0x55) then
       let wc := 0 in
       let i := 2 in
       c99_mbtowc_loop2 64%nat i wc s n pwc
      else
       let pwc := Some 0x5c in
       Ok (1, pwc))
  else
   Ok ((-1), pwc)).

(* lib/converters/c99.h:111-148 c99_wctomb *)
Fixpoint c99_wctomb_loop (fuel : nat) (count : Z) (result : Z) (wc : Z) (ro : nat) (r : wlog) {struct fuel} : res (Z * wlog) :=
  match fuel with O => NoFuel | S fuel =>
  if (count >=? 0) then
   let i := (Z.land (Z.shiftr wc (4 * count)) 0xf) in
   let r := wr r ro (if (i <? 0xa) then (0x30 + i) else (0x57 + i)) in
   let ro := (Nat.add ro 1%nat) in
   let count := (count - 1) in
   c99_wctomb_loop fuel count result wc ro r
  else
   Ok (result, r)
  end.
(* lib/converters/c99.h:111-148 c99_wctomb *)
Definition c99_wctomb_j (result : Z) (u : Z) (wc : Z) (n : nat) (ro : nat) (r : wlog) : res (Z * wlog) :=
  if (Nat.leb (Z.to_nat result) n) then
   let r := wr r ro 0x5c in
   let r := wr r (Nat.add ro 1%nat) u in
   let ro := (Nat.add ro 2%nat) in
   let count := (result - 3) in
   c99_wctomb_loop 64%nat count result wc ro r
  else
   Ok ((-2), r).
(* lib/converters/c99.h:111-148 c99_wctomb *)
Definition c99_wctomb (wc : Z) (n : nat) : res (Z * wlog) :=
  let r := ([] : wlog) in
  let ro := 0%nat in
  if (wc <? 0xa0) then
   let r := wr r ro wc in
   Ok (1, r)
  else
   if (wc <? 0x10000) then
    let result := 6 in
    let u := 0x75 in
    c99_wctomb_j result u wc n ro r
   else
    let result := 0xa in
    let u := 0x55 in
    c99_wctomb_j result u wc n ro r.

(* lib/converters/java.h:36-106 java_mbtowc *)
Fixpoint java_mbtowc_loop2 (fuel : nat) (i : Z) (wc : Z) (wc2 : Z) (s : list Z) (n : nat) (pwc : option Z) {struct fuel} : res (Z * option Z) :=
  match fuel with O => NoFuel | S fuel =>
  if (i <? 0xc) then
   if (Nat.leb n (Z.to_nat i)) then
    Ok ((-2), pwc)
   else
    rd s (Z.to_nat i) (fun c =>
    if ((c >=? 0x30) &&& (c <=? 0x39)) then
     let c := (c - 0x30) in
     java_mbtowc_j2 fuel c i wc wc2 s n pwc
    else
     if ((c >=? 0x41) &&& (c <=? 0x5a)) then
      let c := (c - 0x37) in
      java_mbtowc_j2 fuel c i wc wc2 s n pwc
     else
      if ((c >=? 0x61) &&& (c <=? 0x7a)) then
       let c := (c - 0x57) in
       java_mbtowc_j2 fuel c i wc wc2 s n pwc
      else
       let pwc := Some 0x5c in
       Ok (1, pwc))
  else
   if (negb ((wc2 >=? 0xdc00) &&& (wc2 <? 0xe000))) then
    let pwc := Some 0x5c in
    Ok (1, pwc)
   else
    let pwc := Some (u32 ((u32 (0x10000 + (u32 (Z.shiftl (u32 (wc - 0xd800)) 0xa)))) + (u32 (wc2 - 0xdc00)))) in
    Ok (0xc, pwc)
  end
with java_mbtowc_j2 (fuel : nat) (c : Z) (i : Z) (wc : Z) (wc2 : Z) (s : list Z) (n : nat) (pwc : option Z) {struct fuel} : res (Z * option Z) :=
  match fuel with O => NoFuel | S fuel =>
  let wc2 := (Z.lor wc2 (Z.shiftl c (4 * (0xb - i)))) in
  let i := (i + 1) in
  java_mbtowc_loop2 fuel i wc wc2 s n pwc
  end.
(* lib/converters/java.h:36-106 java_mbtowc *)
Fixpoint java_mbtowc_loop (fuel : nat) (i : Z) (wc : Z) (s : list Z) (n : nat) (pwc : option Z) {struct fuel} : res (Z * option Z) :=
  match fuel with O => NoFuel | S fuel =>
  if (i <? 6) then
   if (Nat.leb n (Z.to_nat i)) then
    Ok ((-2), pwc)
   else
    rd s (Z.to_nat i) (fun c =>
    if ((c >=? 0x30) &&& (c <=? 0x39)) then
     let c := (c - 0x30) in
     java_mbtowc_j fuel c i wc s n pwc
    else
     if ((c >=? 0x41) &&& (c <=? 0x5a)) then
      let c := (c - 0x37) in
      java_mbtowc_j fuel c i wc s n pwc
     else
      if ((c >=? 0x61) &&& (c <=? 0x7a)) then
       let c := (c - 0x57) in
       java_mbtowc_j fuel c i wc s n pwc
      else
       let pwc := Some 0x5c in
       Ok (1, pwc))
  else
   if (negb ((wc >=? 0xd800) &&& (wc <? 0xe000))) then
    let pwc := Some wc in
    Ok (6, pwc)
   else
    if (wc >=? 0xdc00) then
     let pwc := Some 0x5c in
     Ok (1, pwc)
    else
     if (Nat.ltb n 7%nat) then
      Ok ((-2), pwc)
     else
      rd s 6%nat (fun x4 =>
      if (negb (x4 =? 0x5c)) then
       let pwc := Some 0x5c in
       Ok (1, pwc)
      else
       if (Nat.ltb n 8%nat) then
        Ok ((-2), pwc)
       else
        rd s 7%nat (fun x5 =>
        if (negb (x5 =? 0x75)) then
         let pwc := Some 0x5c in
         Ok (1, pwc)
        else
         let wc2 := 0 in
         let i := 8 in
         java_mbtowc_loop2 64%nat i wc wc2 s n pwc))
  end
with java_mbtowc_j (fuel : nat) (c : Z) (i : Z) (wc : Z) (s : list Z) (n : nat) (pwc : option Z) {struct fuel} : res (Z * option Z) :=
  match fuel with O => NoFuel | S fuel =>
  let wc := (Z.lor wc (Z.shiftl c (4 * (5 - i)))) in
  let i := (i + 1) in
  java_mbtowc_loop fuel i wc s n pwc
  end.
(* lib/converters/java.h:36-106 java_mbtowc *)
Definition java_mbtowc (s : list Z) (n : nat) : res (Z * option Z) :=
  let pwc := (None : option Z) in
  rd s 0%nat (fun c =>
  if (negb (c =? 0x5c)) then
   let pwc := Some c in
   Ok (1, pwc)
  else
   if (Nat.ltb n 2%nat) then
    Ok ((-2), pwc)
   else
    rd s 1%nat (fun x2 =>
    if (negb (x2 =? 0x75)) then
     let pwc := Some 0x5c in
     Ok (1, pwc)
    else
     let wc := 0 in
     let i := 2 in
     java_mbtowc_loop 64%nat i wc s n pwc)).

(* lib/converters/java.h:108-168 java_wctomb *)
Definition java_wctomb (wc : Z) (n : nat) : res (Z * wlog) :=
  let r := ([] : wlog) in
  if (wc <? 0x80) then
   let r := wr r 0%nat wc in
   Ok (1, r)
  else
   if (wc <? 0x10000) then
    if (Nat.leb 6%nat n) then
     let r := wr r 0%nat 0x5c in
     let r := wr r 1%nat 0x75 in
     let i := (Z.land (Z.shiftr wc 0xc) 0xf) in
     let r := wr r 2%nat (if (i <? 0xa) then (0x30 + i) else (0x57 + i)) in
     let i := (Z.land (Z.shiftr wc 8) 0xf) in
     let r := wr r 3%nat (if (i <? 0xa) then (0x30 + i) else (0x57 + i)) in
     let i := (Z.land (Z.shiftr wc 4) 0xf) in
     let r := wr r 4%nat (if (i <? 0xa) then (0x30 + i) else (0x57 + i)) in
     let i := (Z.land wc 0xf) in
     let r := wr r 5%nat (if (i <? 0xa) then (0x30 + i) else (0x57 + i)) in
     Ok (6, r)
    else
     Ok ((-2), r)
   else
    if (wc <? 0x110000) then
     if (Nat.leb 12%nat n) then
      let wc1 := (0xd800 + (Z.shiftr (wc - 0x10000) 0xa)) in
      let wc2 := (0xdc00 + (Z.land (wc - 0x10000) 0x3ff)) in
      let r := wr r 0%nat 0x5c in
      let r := wr r 1%nat 0x75 in
      let i := (Z.land (Z.shiftr wc1 0xc) 0xf) in
      let r := wr r 2%nat (if (i <? 0xa) then (0x30 + i) else (0x57 + i)) in
      let i := (Z.land (Z.shiftr wc1 8) 0xf) in
      let r := wr r 3%nat (if (i <? 0xa) then (0x30 + i) else (0x57 + i)) in
      let i := (Z.land (Z.shiftr wc1 4) 0xf) in
      let r := wr r 4%nat (if (i <? 0xa) then (0x30 + i) else (0x57 + i)) in
      let i := (Z.land wc1 0xf) in
      let r := wr r 5%nat (if (i <? 0xa) then (0x30 + i) else (0x57 + i)) in
      let r := wr r 6%nat 0x5c in
      let r := wr r 7%nat 0x75 in
      let i := (Z.land (Z.shiftr wc2 0xc) 0xf) in
      let r := wr r 8%nat (if (i <? 0xa) then (0x30 + i) else (0x57 + i)) in
      let i := (Z.land (Z.shiftr wc2 8) 0xf) in
      let r := wr r 9%nat (if (i <? 0xa) then (0x30 + i) else (0x57 + i)) in
      let i := (Z.land (Z.shiftr wc2 4) 0xf) in
      let r := wr r 10%nat (if (i <? 0xa) then (0x30 + i) else (0x57 + i)) in
      let i := (Z.land wc2 0xf) in
      let r := wr r 11%nat (if (i <? 0xa) then (0x30 + i) else (0x57 + i)) in
      Ok (0xc, r)
     else
      Ok ((-2), r)
    else
     Ok ((-1), r).

(* lib/converters/ucs2.h:35-66 ucs2_mbtowc *)
Fixpoint ucs2_mbtowc_loop (fuel : nat) (count : Z) (state : Z) (s : list Z) (n : nat) (pwc : option Z) (ist : Z) {struct fuel} : res (Z * option Z * Z * Z) :=
  match fuel with O => NoFuel | S fuel =>
  if (((Nat.leb 2%nat n) &&& (count <=? 0x3ffffffe)) &&& (count <=? 0x7ffffffd)) then
   if (negb (state =? 0)) then
    rd s 0%nat (fun x1 =>
    rd s 1%nat (fun x2 =>
    let wc := (x1 + (Z.shiftl x2 8)) in
    ucs2_mbtowc_j fuel count state wc s n pwc ist))
   else
    rd s 0%nat (fun x3 =>
    rd s 1%nat (fun x4 =>
    let wc := ((Z.shiftl x3 8) + x4) in
    ucs2_mbtowc_j fuel count state wc s n pwc ist))
  else
   let ibo := state in
   ck (2 * count) (fun k1 =>
   ck ((-2) - k1) (fun k2 =>
   Ok (k2, pwc, ist, ibo)))
  end
with ucs2_mbtowc_j (fuel : nat) (count : Z) (state : Z) (wc : Z) (s : list Z) (n : nat) (pwc : option Z) (ist : Z) {struct fuel} : res (Z * option Z * Z * Z) :=
  match fuel with O => NoFuel | S fuel =>
  if (wc =? 0xfeff) then
   ucs2_mbtowc_j2 fuel count state s n pwc ist
  else
   if (wc =? 0xfffe) then
    let state := (Z.lxor state 1) in
    ucs2_mbtowc_j2 fuel count state s n pwc ist
   else
    if ((wc >=? 0xd800) &&& (wc <? 0xe000)) then
     let ibo := state in
     ck (2 * count) (fun k3 =>
     Ok (((-1) - k3), pwc, ist, ibo))
    else
     let pwc := Some wc in
     let ibo := state in
     ck (count + 2) (fun k4 =>
     Ok (k4, pwc, ist, ibo))
  end
with ucs2_mbtowc_j2 (fuel : nat) (count : Z) (state : Z) (s : list Z) (n : nat) (pwc : option Z) (ist : Z) {struct fuel} : res (Z * option Z * Z * Z) :=
  match fuel with O => NoFuel | S fuel =>
  let s := skipn 2%nat s in
  nsub n 2%nat (fun n =>
  ck (count + 2) (fun k6 =>
  let count := k6 in
  ucs2_mbtowc_loop fuel count state s n pwc ist))
  end.
(* lib/converters/ucs2.h:35-66 ucs2_mbtowc *)
Definition ucs2_mbtowc (s : list Z) (n : nat) (ist : Z) (ibo : Z) : res (Z * option Z * Z * Z) :=
  let pwc := (None : option Z) in
  let state := ibo in
  let count := 0 in
  ucs2_mbtowc_loop (8 + 4 * n)%nat count state s n pwc ist.

(* lib/converters/ucs2.h:72-87 ucs2_wctomb *)
Definition ucs2_wctomb (wc : Z) (n : nat) : res (Z * wlog) :=
  let r := ([] : wlog) in
  if (((wc <? 0x10000) &&& (negb (wc =? 0xfffe))) &&& (negb ((wc >=? 0xd800) &&& (wc <? 0xe000)))) then
   if (Nat.leb 2%nat n) then
    let r := wr r 0%nat (Z.shiftr wc 8) in
    let r := wr r 1%nat (u8 wc) in
    Ok (2, r)
   else
    Ok ((-2), r)
  else
   Ok ((-1), r).

(* lib/converters/ucs2be.h:30-45 ucs2be_mbtowc *)
Definition ucs2be_mbtowc (s : list Z) (n : nat) : res (Z * option Z) :=
  let pwc := (None : option Z) in
  if (Nat.leb 2%nat n) then
   rd s 0%nat (fun x1 =>
   if (x1 >=? 0xd8) then
    if (x1 <? 0xe0) then
     Ok ((-1), pwc)
    else
     rd s 1%nat (fun x4 =>
     let pwc := Some ((Z.shiftl x1 8) + x4) in
     Ok (2, pwc))
   else
    rd s 1%nat (fun x4 =>
    let pwc := Some ((Z.shiftl x1 8) + x4) in
    Ok (2, pwc)))
  else
   Ok ((-2), pwc).

(* lib/converters/ucs2be.h:47-61 ucs2be_wctomb *)
Definition ucs2be_wctomb (wc : Z) (n : nat) : res (Z * wlog) :=
  let r := ([] : wlog) in
  if ((wc <? 0x10000) &&& (negb ((wc >=? 0xd800) &&& (wc <? 0xe000)))) then
   if (Nat.leb 2%nat n) then
    let r := wr r 0%nat (Z.shiftr wc 8) in
    let r := wr r 1%nat (u8 wc) in
    Ok (2, r)
   else
    Ok ((-2), r)
  else
   Ok ((-1), r).

(* lib/converters/ucs2internal.h:30-46 ucs2internal_mbtowc *)
Definition ucs2internal_mbtowc (s : list Z) (n : nat) : res (Z * option Z) :=
  let pwc := (None : option Z) in
  if (Nat.leb 2%nat n) then
   rd s 0%nat (fun x1 =>
   rd s 1%nat (fun x2 =>
   let x := (Z.lor x1 (Z.shiftl x2 8)) in
   if ((x >=? 0xd800) &&& (x <? 0xe000)) then
    Ok ((-1), pwc)
   else
    let pwc := Some x in
    Ok (2, pwc)))
  else
   Ok ((-2), pwc).

(* lib/converters/ucs2internal.h:48-62 ucs2internal_wctomb *)
Definition ucs2internal_wctomb (wc : Z) (n : nat) : res (Z * wlog) :=
  let r := ([] : wlog) in
  if ((wc <? 0x10000) &&& (negb ((wc >=? 0xd800) &&& (wc <? 0xe000)))) then
   if (Nat.leb 2%nat n) then
    let x1 := wc in
    let r := wr r 0%nat (u8 x1) in
    let r := wr r 1%nat (Z.shiftr x1 8) in
    Ok (2, r)
   else
    Ok ((-2), r)
  else
   Ok ((-1), r).

(* lib/converters/ucs2le.h:30-45 ucs2le_mbtowc *)
Definition ucs2le_mbtowc (s : list Z) (n : nat) : res (Z * option Z) :=
  let pwc := (None : option Z) in
  if (Nat.leb 2%nat n) then
   rd s 1%nat (fun x1 =>
   if (x1 >=? 0xd8) then
    if (x1 <? 0xe0) then
     Ok ((-1), pwc)
    else
     rd s 0%nat (fun x3 =>
     let pwc := Some (x3 + (Z.shiftl x1 8)) in
     Ok (2, pwc))
   else
    rd s 0%nat (fun x3 =>
    let pwc := Some (x3 + (Z.shiftl x1 8)) in
    Ok (2, pwc)))
  else
   Ok ((-2), pwc).

(* lib/converters/ucs2le.h:47-61 ucs2le_wctomb *)
Definition ucs2le_wctomb (wc : Z) (n : nat) : res (Z * wlog) :=
  let r := ([] : wlog) in
  if ((wc <? 0x10000) &&& (negb ((wc >=? 0xd800) &&& (wc <? 0xe000)))) then
   if (Nat.leb 2%nat n) then
    let r := wr r 0%nat (u8 wc) in
    let r := wr r 1%nat (Z.shiftr wc 8) in
    Ok (2, r)
   else
    Ok ((-2), r)
  else
   Ok ((-1), r).

(* lib/converters/ucs2swapped.h:32-53 ucs2swapped_mbtowc *)
Definition ucs2swapped_mbtowc (s : list Z) (n : nat) : res (Z * option Z) :=
  let pwc := (None : option Z) in
  if (negb (2 =? 2)) then
   Abort
  else
   if (Nat.leb 2%nat n) then
    rd s 0%nat (fun x1 =>
    rd s 1%nat (fun x2 =>
    let x := (Z.lor x1 (Z.shiftl x2 8)) in
    let x := (u16 (Z.lor (Z.shiftr x 8) (Z.shiftl x 8))) in
    if ((x >=? 0xd800) &&& (x <? 0xe000)) then
     Ok ((-1), pwc)
    else
     let pwc := Some x in
     Ok (2, pwc)))
   else
    Ok ((-2), pwc).

(* lib/converters/ucs2swapped.h:55-75 ucs2swapped_wctomb *)
Definition ucs2swapped_wctomb (wc : Z) (n : nat) : res (Z * wlog) :=
  let r := ([] : wlog) in
  if (negb (2 =? 2)) then
   Abort
  else
   if ((wc <? 0x10000) &&& (negb ((wc >=? 0xd800) &&& (wc <? 0xe000)))) then
    if (Nat.leb 2%nat n) then
     let x := wc in
     let x := (u16 (Z.lor (Z.shiftr x 8) (Z.shiftl x 8))) in
     let x1 := x in
     let r := wr r 0%nat (u8 x1) in
     let r := wr r 1%nat (Z.shiftr x1 8) in
     Ok (2, r)
    else
     Ok ((-2), r)
   else
    Ok ((-1), r).

(* lib/converters/ucs4.h:35-67 ucs4_mbtowc *)
Fixpoint ucs4_mbtowc_loop (fuel : nat) (count : Z) (state : Z) (s : list Z) (n : nat) (pwc : option Z) (ist : Z) {struct fuel} : res (Z * option Z * Z * Z) :=
  match fuel with O => NoFuel | S fuel =>
  if (((Nat.leb 4%nat n) &&& (count <=? 0x3ffffffe)) &&& (count <=? 0x7ffffffb)) then
   if (negb (state =? 0)) then
    rd s 0%nat (fun x1 =>
    rd s 1%nat (fun x2 =>
    rd s 2%nat (fun x3 =>
    rd s 3%nat (fun x4 =>
    let wc := (((x1 + (Z.shiftl x2 8)) + (Z.shiftl x3 0x10)) + (Z.shiftl x4 0x18)) in
    ucs4_mbtowc_j fuel count state wc s n pwc ist))))
   else
    rd s 0%nat (fun x5 =>
    rd s 1%nat (fun x6 =>
    rd s 2%nat (fun x7 =>
    rd s 3%nat (fun x8 =>
    let wc := ((((Z.shiftl x5 0x18) + (Z.shiftl x6 0x10)) + (Z.shiftl x7 8)) + x8) in
    ucs4_mbtowc_j fuel count state wc s n pwc ist))))
  else
   let ibo := state in
   ck (2 * count) (fun k1 =>
   ck ((-2) - k1) (fun k2 =>
   Ok (k2, pwc, ist, ibo)))
  end
with ucs4_mbtowc_j (fuel : nat) (count : Z) (state : Z) (wc : Z) (s : list Z) (n : nat) (pwc : option Z) (ist : Z) {struct fuel} : res (Z * option Z * Z * Z) :=
  match fuel with O => NoFuel | S fuel =>
  if (wc =? 0xfeff) then
   ucs4_mbtowc_j2 fuel count state s n pwc ist
  else
   if (wc =? 0xfffe0000) then
    let state := (Z.lxor state 1) in
    ucs4_mbtowc_j2 fuel count state s n pwc ist
   else
    if (wc <=? 0x7fffffff) then
     let pwc := Some wc in
     let ibo := state in
     ck (count + 4) (fun k3 =>
     Ok (k3, pwc, ist, ibo))
    else
     let ibo := state in
     ck (2 * count) (fun k4 =>
     Ok (((-1) - k4), pwc, ist, ibo))
  end
with ucs4_mbtowc_j2 (fuel : nat) (count : Z) (state : Z) (s : list Z) (n : nat) (pwc : option Z) (ist : Z) {struct fuel} : res (Z * option Z * Z * Z) :=
  match fuel with O => NoFuel | S fuel =>
  let s := skipn 4%nat s in
  nsub n 4%nat (fun n =>
  ck (count + 4) (fun k6 =>
  let count := k6 in
  ucs4_mbtowc_loop fuel count state s n pwc ist))
  end.
(* lib/converters/ucs4.h:35-67 ucs4_mbtowc *)
Definition ucs4_mbtowc (s : list Z) (n : nat) (ist : Z) (ibo : Z) : res (Z * option Z * Z * Z) :=
  let pwc := (None : option Z) in
  let state := ibo in
  let count := 0 in
  ucs4_mbtowc_loop (8 + 4 * n)%nat count state s n pwc ist.

(* lib/converters/ucs4.h:70-87 ucs4_wctomb *)
Definition ucs4_wctomb (wc : Z) (n : nat) : res (Z * wlog) :=
  let r := ([] : wlog) in
  if (wc <=? 0x7fffffff) then
   if (Nat.leb 4%nat n) then
    let r := wr r 0%nat (Z.shiftr wc 0x18) in
    let r := wr r 1%nat (u8 (Z.shiftr wc 0x10)) in
    let r := wr r 2%nat (u8 (Z.shiftr wc 8)) in
    let r := wr r 3%nat (u8 wc) in
    Ok (4, r)
   else
    Ok ((-2), r)
  else
   Ok ((-1), r).

(* lib/converters/ucs4be.h:30-38 ucs4be_mbtowc *)
Definition ucs4be_mbtowc (s : list Z) (n : nat) : res (Z * option Z) :=
  let pwc := (None : option Z) in
  if (Nat.leb 4%nat n) then
   rd s 0%nat (fun x1 =>
   rd s 1%nat (fun x2 =>
   rd s 2%nat (fun x3 =>
   rd s 3%nat (fun x4 =>
   let pwc := Some ((((Z.shiftl x1 0x18) + (Z.shiftl x2 0x10)) + (Z.shiftl x3 8)) + x4) in
   Ok (4, pwc)))))
  else
   Ok ((-2), pwc).

(* lib/converters/ucs4be.h:40-52 ucs4be_wctomb *)
Definition ucs4be_wctomb (wc : Z) (n : nat) : res (Z * wlog) :=
  let r := ([] : wlog) in
  if (Nat.leb 4%nat n) then
   let r := wr r 0%nat (Z.shiftr wc 0x18) in
   let r := wr r 1%nat (u8 (Z.shiftr wc 0x10)) in
   let r := wr r 2%nat (u8 (Z.shiftr wc 8)) in
   let r := wr r 3%nat (u8 wc) in
   Ok (4, r)
  else
   Ok ((-2), r).

(* lib/converters/ucs4internal.h:30-38 ucs4internal_mbtowc *)
Definition ucs4internal_mbtowc (s : list Z) (n : nat) : res (Z * option Z) :=
  let pwc := (None : option Z) in
  if (Nat.leb 4%nat n) then
   rd s 0%nat (fun x1 =>
   rd s 1%nat (fun x2 =>
   rd s 2%nat (fun x3 =>
   rd s 3%nat (fun x4 =>
   let pwc := Some (Z.lor (Z.lor (Z.lor x1 (Z.shiftl x2 8)) (Z.shiftl x3 0x10)) (Z.shiftl x4 0x18)) in
   Ok (4, pwc)))))
  else
   Ok ((-2), pwc).

(* lib/converters/ucs4internal.h:40-49 ucs4internal_wctomb *)
Definition ucs4internal_wctomb (wc : Z) (n : nat) : res (Z * wlog) :=
  let r := ([] : wlog) in
  if (Nat.leb 4%nat n) then
   let x1 := wc in
   let r := wr r 0%nat (u8 x1) in
   let r := wr r 1%nat (u8 (Z.shiftr x1 8)) in
   let r := wr r 2%nat (u8 (Z.shiftr x1 0x10)) in
   let r := wr r 3%nat (Z.shiftr x1 0x18) in
   Ok (4, r)
  else
   Ok ((-2), r).

(* lib/converters/ucs4le.h:30-38 ucs4le_mbtowc *)
Definition ucs4le_mbtowc (s : list Z) (n : nat) : res (Z * option Z) :=
  let pwc := (None : option Z) in
  if (Nat.leb 4%nat n) then
   rd s 0%nat (fun x1 =>
   rd s 1%nat (fun x2 =>
   rd s 2%nat (fun x3 =>
   rd s 3%nat (fun x4 =>
   let pwc := Some (((x1 + (Z.shiftl x2 8)) + (Z.shiftl x3 0x10)) + (Z.shiftl x4 0x18)) in
   Ok (4, pwc)))))
  else
   Ok ((-2), pwc).

(* lib/converters/ucs4le.h:40-52 ucs4le_wctomb *)
Definition ucs4le_wctomb (wc : Z) (n : nat) : res (Z * wlog) :=
  let r := ([] : wlog) in
  if (Nat.leb 4%nat n) then
   let r := wr r 0%nat (u8 wc) in
   let r := wr r 1%nat (u8 (Z.shiftr wc 8)) in
   let r := wr r 2%nat (u8 (Z.shiftr wc 0x10)) in
   let r := wr r 3%nat (Z.shiftr wc 0x18) in
   Ok (4, r)
  else
   Ok ((-2), r).

(* lib/converters/ucs4swapped.h:32-46 ucs4swapped_mbtowc *)
Definition ucs4swapped_mbtowc (s : list Z) (n : nat) : res (Z * option Z) :=
  let pwc := (None : option Z) in
  if (negb (4 =? 4)) then
   Abort
  else
   if (Nat.leb 4%nat n) then
    rd s 0%nat (fun x1 =>
    rd s 1%nat (fun x2 =>
    rd s 2%nat (fun x3 =>
    rd s 3%nat (fun x4 =>
    let x := (Z.lor (Z.lor (Z.lor x1 (Z.shiftl x2 8)) (Z.shiftl x3 0x10)) (Z.shiftl x4 0x18)) in
    let x := (Z.lor (Z.lor (Z.lor (Z.shiftr x 0x18) (Z.land (Z.shiftr x 8) 0xff00)) (Z.shiftl (Z.land x 0xff00) 8)) (u32 (Z.shiftl x 0x18))) in
    let pwc := Some x in
    Ok (4, pwc)))))
   else
    Ok ((-2), pwc).

(* lib/converters/ucs4swapped.h:48-63 ucs4swapped_wctomb *)
Definition ucs4swapped_wctomb (wc : Z) (n : nat) : res (Z * wlog) :=
  let r := ([] : wlog) in
  if (negb (4 =? 4)) then
   Abort
  else
   if (Nat.leb 4%nat n) then
    let x := wc in
    let x := (Z.lor (Z.lor (Z.lor (Z.shiftr x 0x18) (Z.land (Z.shiftr x 8) 0xff00)) (Z.shiftl (Z.land x 0xff00) 8)) (u32 (Z.shiftl x 0x18))) in
    let x1 := x in
    let r := wr r 0%nat (u8 x1) in
    let r := wr r 1%nat (u8 (Z.shiftr x1 8)) in
    let r := wr r 2%nat (u8 (Z.shiftr x1 0x10)) in
    let r := wr r 3%nat (Z.shiftr x1 0x18) in
    Ok (4, r)
   else
    Ok ((-2), r).

(* lib/converters/utf16.h:41-89 utf16_mbtowc *)
Definition utf16_mbtowc_j2 (count : Z) (state : Z) (wc : Z) (wc2 : Z) (pwc : option Z) (ist : Z) : res (Z * option Z * Z * Z) :=
  if (negb ((wc2 >=? 0xdc00) &&& (wc2 <? 0xe000))) then
   let ibo := state in
   ck (2 * count) (fun k1 =>
   Ok (((-1) - k1), pwc, ist, ibo))
  else
   let pwc := Some ((0x10000 + (Z.shiftl (wc - 0xd800) 0xa)) + (wc2 - 0xdc00)) in
   let ibo := state in
   ck (count + 4) (fun k2 =>
   Ok (k2, pwc, ist, ibo)).
(* lib/converters/utf16.h:41-89 utf16_mbtowc *)
Fixpoint utf16_mbtowc_loop (fuel : nat) (count : Z) (state : Z) (s : list Z) (n : nat) (pwc : option Z) (ist : Z) {struct fuel} : res (Z * option Z * Z * Z) :=
  match fuel with O => NoFuel | S fuel =>
  if (((Nat.leb 2%nat n) &&& (count <=? 0x3ffffffe)) &&& (count <=? 0x7ffffffd)) then
   if (negb (state =? 0)) then
    rd s 0%nat (fun x1 =>
    rd s 1%nat (fun x2 =>
    let wc := (x1 + (Z.shiftl x2 8)) in
    utf16_mbtowc_j fuel count state wc s n pwc ist))
   else
    rd s 0%nat (fun x3 =>
    rd s 1%nat (fun x4 =>
    let wc := ((Z.shiftl x3 8) + x4) in
    utf16_mbtowc_j fuel count state wc s n pwc ist))
  else
   let ibo := state in
   ck (2 * count) (fun k3 =>
   ck ((-2) - k3) (fun k4 =>
   Ok (k4, pwc, ist, ibo)))
  end
with utf16_mbtowc_j (fuel : nat) (count : Z) (state : Z) (wc : Z) (s : list Z) (n : nat) (pwc : option Z) (ist : Z) {struct fuel} : res (Z * option Z * Z * Z) :=
  match fuel with O => NoFuel | S fuel =>
  if (wc =? 0xfeff) then
   utf16_mbtowc_j3 fuel count state s n pwc ist
  else
   if (wc =? 0xfffe) then
    let state := (Z.lxor state 1) in
    utf16_mbtowc_j3 fuel count state s n pwc ist
   else
    if ((wc >=? 0xd800) &&& (wc <? 0xdc00)) then
     if (Nat.leb 4%nat n) then
      if (negb (state =? 0)) then
       rd s 2%nat (fun x5 =>
       rd s 3%nat (fun x6 =>
       let wc2 := (x5 + (Z.shiftl x6 8)) in
       utf16_mbtowc_j2 count state wc wc2 pwc ist))
      else
       rd s 2%nat (fun x7 =>
       rd s 3%nat (fun x8 =>
       let wc2 := ((Z.shiftl x7 8) + x8) in
       utf16_mbtowc_j2 count state wc wc2 pwc ist))
     else
      let ibo := state in
      ck (2 * count) (fun k5 =>
      ck ((-2) - k5) (fun k6 =>
      Ok (k6, pwc, ist, ibo)))
    else
     if ((wc >=? 0xdc00) &&& (wc <? 0xe000)) then
      let ibo := state in
      ck (2 * count) (fun k7 =>
      Ok (((-1) - k7), pwc, ist, ibo))
     else
      let pwc := Some wc in
      let ibo := state in
      ck (count + 2) (fun k8 =>
      Ok (k8, pwc, ist, ibo))
  end
with utf16_mbtowc_j3 (fuel : nat) (count : Z) (state : Z) (s : list Z) (n : nat) (pwc : option Z) (ist : Z) {struct fuel} : res (Z * option Z * Z * Z) :=
  match fuel with O => NoFuel | S fuel =>
  let s := skipn 2%nat s in
  nsub n 2%nat (fun n =>
  ck (count + 2) (fun k10 =>
  let count := k10 in
  utf16_mbtowc_loop fuel count state s n pwc ist))
  end.
(* lib/converters/utf16.h:41-89 utf16_mbtowc *)
Definition utf16_mbtowc (s : list Z) (n : nat) (ist : Z) (ibo : Z) : res (Z * option Z * Z * Z) :=
  let pwc := (None : option Z) in
  let state := ibo in
  let count := 0 in
  utf16_mbtowc_loop (8 + 4 * n)%nat count state s n pwc ist.

(* lib/converters/utf16.h:96-144 utf16_wctomb *)
Definition utf16_wctomb_j (count : Z) (wc : Z) (n : nat) (ro : nat) (r : wlog) (ost : Z) : res (Z * wlog * Z) :=
  if (wc <? 0x10000) then
   if (Nat.leb 2%nat n) then
    let r := wr r ro (Z.shiftr wc 8) in
    let r := wr r (Nat.add ro 1%nat) (u8 wc) in
    let ost := 1 in
    Ok ((count + 2), r, ost)
   else
    Ok ((-2), r, ost)
  else
   if (wc <? 0x110000) then
    if (Nat.leb 4%nat n) then
     let wc1 := (0xd800 + (Z.shiftr (wc - 0x10000) 0xa)) in
     let wc2 := (0xdc00 + (Z.land (wc - 0x10000) 0x3ff)) in
     let r := wr r ro (Z.shiftr wc1 8) in
     let r := wr r (Nat.add ro 1%nat) (u8 wc1) in
     let r := wr r (Nat.add ro 2%nat) (Z.shiftr wc2 8) in
     let r := wr r (Nat.add ro 3%nat) (u8 wc2) in
     let ost := 1 in
     Ok ((count + 4), r, ost)
    else
     Ok ((-2), r, ost)
   else
    Ok ((-1), r, ost).
(* lib/converters/utf16.h:96-144 utf16_wctomb *)
Definition utf16_wctomb (wc : Z) (n : nat) (ost : Z) : res (Z * wlog * Z) :=
  let r := ([] : wlog) in
  let ro := 0%nat in
  if ((negb (wc =? 0xfffe)) &&& (negb ((wc >=? 0xd800) &&& (wc <? 0xe000)))) then
   let count := 0 in
   if (negb (negb (ost =? 0))) then
    if (Nat.leb 2%nat n) then
     let r := wr r ro 0xfe in
     let r := wr r (Nat.add ro 1%nat) 0xff in
     let ro := (Nat.add ro 2%nat) in
     nsub n 2%nat (fun n =>
     let count := (count + 2) in
     utf16_wctomb_j count wc n ro r ost)
    else
     Ok ((-2), r, ost)
   else
    utf16_wctomb_j count wc n ro r ost
  else
   Ok ((-1), r, ost).

(* lib/converters/utf16be.h:32-63 utf16be_mbtowc *)
Definition utf16be_mbtowc (s : list Z) (n : nat) : res (Z * option Z) :=
  let pwc := (None : option Z) in
  let count := 0 in
  if (Nat.leb 2%nat n) then
   rd s 0%nat (fun x1 =>
   rd s 1%nat (fun x2 =>
   let wc := ((Z.shiftl x1 8) + x2) in
   if ((wc >=? 0xd800) &&& (wc <? 0xdc00)) then
    if (Nat.leb 4%nat n) then
     rd s 2%nat (fun x3 =>
     rd s 3%nat (fun x4 =>
     let wc2 := ((Z.shiftl x3 8) + x4) in
     if (negb ((wc2 >=? 0xdc00) &&& (wc2 <? 0xe000))) then
      Ok (((-1) - (2 * count)), pwc)
     else
      let pwc := Some ((0x10000 + (Z.shiftl (wc - 0xd800) 0xa)) + (wc2 - 0xdc00)) in
      Ok ((count + 4), pwc)))
    else
     Ok (((-2) - (2 * count)), pwc)
   else
    if ((wc >=? 0xdc00) &&& (wc <? 0xe000)) then
     Ok (((-1) - (2 * count)), pwc)
    else
     let pwc := Some wc in
     Ok ((count + 2), pwc)))
  else
   Ok (((-2) - (2 * count)), pwc).

(* lib/converters/utf16be.h:65-97 utf16be_wctomb *)
Definition utf16be_wctomb (wc : Z) (n : nat) : res (Z * wlog) :=
  let r := ([] : wlog) in
  if (negb ((wc >=? 0xd800) &&& (wc <? 0xe000))) then
   if (wc <? 0x10000) then
    if (Nat.leb 2%nat n) then
     let r := wr r 0%nat (Z.shiftr wc 8) in
     let r := wr r 1%nat (u8 wc) in
     Ok (2, r)
    else
     Ok ((-2), r)
   else
    if (wc <? 0x110000) then
     if (Nat.leb 4%nat n) then
      let wc1 := (0xd800 + (Z.shiftr (wc - 0x10000) 0xa)) in
      let wc2 := (0xdc00 + (Z.land (wc - 0x10000) 0x3ff)) in
      let r := wr r 0%nat (Z.shiftr wc1 8) in
      let r := wr r 1%nat (u8 wc1) in
      let r := wr r 2%nat (Z.shiftr wc2 8) in
      let r := wr r 3%nat (u8 wc2) in
      Ok (4, r)
     else
      Ok ((-2), r)
    else
     Ok ((-1), r)
  else
   Ok ((-1), r).

(* lib/converters/utf16le.h:32-63 utf16le_mbtowc *)
Definition utf16le_mbtowc (s : list Z) (n : nat) : res (Z * option Z) :=
  let pwc := (None : option Z) in
  let count := 0 in
  if (Nat.leb 2%nat n) then
   rd s 0%nat (fun x1 =>
   rd s 1%nat (fun x2 =>
   let wc := (x1 + (Z.shiftl x2 8)) in
   if ((wc >=? 0xd800) &&& (wc <? 0xdc00)) then
    if (Nat.leb 4%nat n) then
     rd s 2%nat (fun x3 =>
     rd s 3%nat (fun x4 =>
     let wc2 := (x3 + (Z.shiftl x4 8)) in
     if (negb ((wc2 >=? 0xdc00) &&& (wc2 <? 0xe000))) then
      Ok (((-1) - (2 * count)), pwc)
     else
      let pwc := Some ((0x10000 + (Z.shiftl (wc - 0xd800) 0xa)) + (wc2 - 0xdc00)) in
      Ok ((count + 4), pwc)))
    else
     Ok (((-2) - (2 * count)), pwc)
   else
    if ((wc >=? 0xdc00) &&& (wc <? 0xe000)) then
     Ok (((-1) - (2 * count)), pwc)
    else
     let pwc := Some wc in
     Ok ((count + 2), pwc)))
  else
   Ok (((-2) - (2 * count)), pwc).

(* lib/converters/utf16le.h:65-97 utf16le_wctomb *)
Definition utf16le_wctomb (wc : Z) (n : nat) : res (Z * wlog) :=
  let r := ([] : wlog) in
  if (negb ((wc >=? 0xd800) &&& (wc <? 0xe000))) then
   if (wc <? 0x10000) then
    if (Nat.leb 2%nat n) then
     let r := wr r 0%nat (u8 wc) in
     let r := wr r 1%nat (Z.shiftr wc 8) in
     Ok (2, r)
    else
     Ok ((-2), r)
   else
    if (wc <? 0x110000) then
     if (Nat.leb 4%nat n) then
      let wc1 := (0xd800 + (Z.shiftr (wc - 0x10000) 0xa)) in
      let wc2 := (0xdc00 + (Z.land (wc - 0x10000) 0x3ff)) in
      let r := wr r 0%nat (u8 wc1) in
      let r := wr r 1%nat (Z.shiftr wc1 8) in
      let r := wr r 2%nat (u8 wc2) in
      let r := wr r 3%nat (Z.shiftr wc2 8) in
      Ok (4, r)
     else
      Ok ((-2), r)
    else
     Ok ((-1), r)
  else
   Ok ((-1), r).

(* lib/converters/utf32.h:41-76 utf32_mbtowc *)
Fixpoint utf32_mbtowc_loop (fuel : nat) (count : Z) (state : Z) (s : list Z) (n : nat) (pwc : option Z) (ist : Z) {struct fuel} : res (Z * option Z * Z * Z) :=
  match fuel with O => NoFuel | S fuel =>
  if (((Nat.leb 4%nat n) &&& (count <=? 0x3ffffffe)) &&& (count <=? 0x7ffffffb)) then
   if (negb (state =? 0)) then
    rd s 0%nat (fun x1 =>
    rd s 1%nat (fun x2 =>
    rd s 2%nat (fun x3 =>
    rd s 3%nat (fun x4 =>
    let wc := (((x1 + (Z.shiftl x2 8)) + (Z.shiftl x3 0x10)) + (Z.shiftl x4 0x18)) in
    utf32_mbtowc_j fuel count state wc s n pwc ist))))
   else
    rd s 0%nat (fun x5 =>
    rd s 1%nat (fun x6 =>
    rd s 2%nat (fun x7 =>
    rd s 3%nat (fun x8 =>
    let wc := ((((Z.shiftl x5 0x18) + (Z.shiftl x6 0x10)) + (Z.shiftl x7 8)) + x8) in
    utf32_mbtowc_j fuel count state wc s n pwc ist))))
  else
   let ibo := state in
   ck (2 * count) (fun k1 =>
   ck ((-2) - k1) (fun k2 =>
   Ok (k2, pwc, ist, ibo)))
  end
with utf32_mbtowc_j (fuel : nat) (count : Z) (state : Z) (wc : Z) (s : list Z) (n : nat) (pwc : option Z) (ist : Z) {struct fuel} : res (Z * option Z * Z * Z) :=
  match fuel with O => NoFuel | S fuel =>
  if (wc =? 0xfeff) then
   utf32_mbtowc_j2 fuel count state s n pwc ist
  else
   if (wc =? 0xfffe0000) then
    let state := (Z.lxor state 1) in
    utf32_mbtowc_j2 fuel count state s n pwc ist
   else
    if ((wc <? 0x110000) &&& (negb ((wc >=? 0xd800) &&& (wc <? 0xe000)))) then
     let pwc := Some wc in
     let ibo := state in
     ck (count + 4) (fun k3 =>
     Ok (k3, pwc, ist, ibo))
    else
     let ibo := state in
     ck (2 * count) (fun k4 =>
     Ok (((-1) - k4), pwc, ist, ibo))
  end
with utf32_mbtowc_j2 (fuel : nat) (count : Z) (state : Z) (s : list Z) (n : nat) (pwc : option Z) (ist : Z) {struct fuel} : res (Z * option Z * Z * Z) :=
  match fuel with O => NoFuel | S fuel =>
  let s := skipn 4%nat s in
  nsub n 4%nat (fun n =>
  ck (count + 4) (fun k6 =>
  let count := k6 in
  utf32_mbtowc_loop fuel count state s n pwc ist))
  end.
(* lib/converters/utf32.h:41-76 utf32_mbtowc *)
Definition utf32_mbtowc (s : list Z) (n : nat) (ist : Z) (ibo : Z) : res (Z * option Z * Z * Z) :=
  let pwc := (None : option Z) in
  let state := ibo in
  let count := 0 in
  utf32_mbtowc_loop (8 + 4 * n)%nat count state s n pwc ist.

(* lib/converters/utf32.h:80-116 utf32_wctomb *)
Definition utf32_wctomb_j (count : Z) (wc : Z) (n : nat) (ro : nat) (r : wlog) (ost : Z) : res (Z * wlog * Z) :=
  if (wc <? 0x110000) then
   if (Nat.leb 4%nat n) then
    let r := wr r ro 0 in
    let r := wr r (Nat.add ro 1%nat) (Z.shiftr wc 0x10) in
    let r := wr r (Nat.add ro 2%nat) (u8 (Z.shiftr wc 8)) in
    let r := wr r (Nat.add ro 3%nat) (u8 wc) in
    let ost := 1 in
    Ok ((count + 4), r, ost)
   else
    Ok ((-2), r, ost)
  else
   Ok ((-1), r, ost).
(* lib/converters/utf32.h:80-116 utf32_wctomb *)
Definition utf32_wctomb (wc : Z) (n : nat) (ost : Z) : res (Z * wlog * Z) :=
  let r := ([] : wlog) in
  let ro := 0%nat in
  if ((wc <? 0x110000) &&& (negb ((wc >=? 0xd800) &&& (wc <? 0xe000)))) then
   let count := 0 in
   if (negb (negb (ost =? 0))) then
    if (Nat.leb 4%nat n) then
     let r := wr r ro 0 in
     let r := wr r (Nat.add ro 1%nat) 0 in
     let r := wr r (Nat.add ro 2%nat) 0xfe in
     let r := wr r (Nat.add ro 3%nat) 0xff in
     let ro := (Nat.add ro 4%nat) in
     nsub n 4%nat (fun n =>
     let count := (count + 4) in
     utf32_wctomb_j count wc n ro r ost)
    else
     Ok ((-2), r, ost)
   else
    utf32_wctomb_j count wc n ro r ost
  else
   Ok ((-1), r, ost).

(* lib/converters/utf32be.h:32-48 utf32be_mbtowc *)
Definition utf32be_mbtowc (s : list Z) (n : nat) : res (Z * option Z) :=
  let pwc := (None : option Z) in
  if (Nat.leb 4%nat n) then
   rd s 0%nat (fun x1 =>
   rd s 1%nat (fun x2 =>
   rd s 2%nat (fun x3 =>
   rd s 3%nat (fun x4 =>
   let wc := ((((Z.shiftl x1 0x18) + (Z.shiftl x2 0x10)) + (Z.shiftl x3 8)) + x4) in
   if ((wc <? 0x110000) &&& (negb ((wc >=? 0xd800) &&& (wc <? 0xe000)))) then
    let pwc := Some wc in
    Ok (4, pwc)
   else
    Ok ((-1), pwc)))))
  else
   Ok ((-2), pwc).

(* lib/converters/utf32be.h:50-68 utf32be_wctomb *)
Definition utf32be_wctomb (wc : Z) (n : nat) : res (Z * wlog) :=
  let r := ([] : wlog) in
  if ((wc <? 0x110000) &&& (negb ((wc >=? 0xd800) &&& (wc <? 0xe000)))) then
   if (Nat.leb 4%nat n) then
    let r := wr r 0%nat 0 in
    let r := wr r 1%nat (Z.shiftr wc 0x10) in
    let r := wr r 2%nat (u8 (Z.shiftr wc 8)) in
    let r := wr r 3%nat (u8 wc) in
    Ok (4, r)
   else
    Ok ((-2), r)
  else
   Ok ((-1), r).

(* lib/converters/utf32le.h:32-47 utf32le_mbtowc *)
Definition utf32le_mbtowc (s : list Z) (n : nat) : res (Z * option Z) :=
  let pwc := (None : option Z) in
  if (Nat.leb 4%nat n) then
   rd s 0%nat (fun x1 =>
   rd s 1%nat (fun x2 =>
   rd s 2%nat (fun x3 =>
   rd s 3%nat (fun x4 =>
   let wc := (((x1 + (Z.shiftl x2 8)) + (Z.shiftl x3 0x10)) + (Z.shiftl x4 0x18)) in
   if ((wc <? 0x110000) &&& (negb ((wc >=? 0xd800) &&& (wc <? 0xe000)))) then
    let pwc := Some wc in
    Ok (4, pwc)
   else
    Ok ((-1), pwc)))))
  else
   Ok ((-2), pwc).

(* lib/converters/utf32le.h:49-63 utf32le_wctomb *)
Definition utf32le_wctomb (wc : Z) (n : nat) : res (Z * wlog) :=
  let r := ([] : wlog) in
  if ((wc <? 0x110000) &&& (negb ((wc >=? 0xd800) &&& (wc <? 0xe000)))) then
   if (Nat.leb 4%nat n) then
    let r := wr r 0%nat (u8 wc) in
    let r := wr r 1%nat (u8 (Z.shiftr wc 8)) in
    let r := wr r 2%nat (Z.shiftr wc 0x10) in
    let r := wr r 3%nat 0 in
    Ok (4, r)
   else
    Ok ((-2), r)
  else
   Ok ((-1), r).

(* lib/converters/utf7.h:38-41 direct_tab *)
Definition direct_tab : tab := mk [
 [0;38;0;0;129;243;255;135;254;255;255;7;254;255;255;7]].

(* lib/converters/utf7.h:48-51 xdirect_tab *)
Definition xdirect_tab : tab := mk [
 [0;38;0;0;255;247;255;255;255;255;255;239;255;255;255;63]].

(* lib/converters/utf7.h:57-60 xbase64_tab *)
Definition xbase64_tab : tab := mk [
 [0;0;0;0;0;168;255;3;254;255;255;7;254;255;255;7]].

(* lib/converters/utf7.h:75-194 utf7_mbtowc *)
Fixpoint utf7_mbtowc_active (fuel : nat) (count : Z) (state : Z) (s : list Z) (n : nat) (pwc : option Z) (ibo : Z) {struct fuel} : res (Z * option Z * Z * Z) :=
  match fuel with O => NoFuel | S fuel =>
  let wc := 0 in
  let base64state := state in
  let kmax := 2 in
  let k := 0 in
  let base64count := 0 in
  utf7_mbtowc_loop fuel base64count base64state count k kmax state wc s n pwc ibo
  end
with utf7_mbtowc_inactive (fuel : nat) (count : Z) (state : Z) (s : list Z) (n : nat) (pwc : option Z) (ibo : Z) {struct fuel} : res (Z * option Z * Z * Z) :=
  match fuel with O => NoFuel | S fuel =>
  ck (count + 1) (fun k1 =>
  if (Nat.ltb n (Z.to_nat k1)) then
   let ist := state in
   ck (2 * count) (fun k2 =>
   ck ((-2) - k2) (fun k3 =>
   Ok (k3, pwc, ist, ibo)))
  else
   rd s 0%nat (fun c =>
   if (c <? 0x80) then
    tget xdirect_tab (Z.shiftr c 3) (fun x2 =>
    if (negb ((Z.land (Z.shiftr x2 (Z.land c 7)) 1) =? 0)) then
     let pwc := Some c in
     let ist := state in
     ck (count + 1) (fun k4 =>
     Ok (k4, pwc, ist, ibo))
    else
     utf7_mbtowc_j fuel c count state s n pwc ibo)
   else
    utf7_mbtowc_j fuel c count state s n pwc ibo))
  end
with utf7_mbtowc_j (fuel : nat) (c : Z) (count : Z) (state : Z) (s : list Z) (n : nat) (pwc : option Z) (ibo : Z) {struct fuel} : res (Z * option Z * Z * Z) :=
  match fuel with O => NoFuel | S fuel =>
  if (c =? 0x2b) then
   ck (count + 2) (fun k5 =>
   if (Nat.ltb n (Z.to_nat k5)) then
    let ist := state in
    ck (2 * count) (fun k6 =>
    ck ((-2) - k6) (fun k7 =>
    Ok (k7, pwc, ist, ibo)))
   else
    rd s 1%nat (fun x3 =>
    if (x3 =? 0x2d) then
     let pwc := Some 0x2b in
     let ist := state in
     ck (count + 2) (fun k8 =>
     Ok (k8, pwc, ist, ibo))
    else
     let s := skipn 1%nat s in
     ck (count + 1) (fun k9 =>
     let count := k9 in
     let state := 1 in
     utf7_mbtowc_active fuel count state s n pwc ibo)))
  else
   let ist := state in
   ck (2 * count) (fun k10 =>
   Ok (((-1) - k10), pwc, ist, ibo))
  end
with utf7_mbtowc_loop (fuel : nat) (base64count : Z) (base64state : Z) (count : Z) (k : Z) (kmax : Z) (state : Z) (wc : Z) (s : list Z) (n : nat) (pwc : option Z) (ibo : Z) {struct fuel} : res (Z * option Z * Z * Z) :=
  match fuel with O => NoFuel | S fuel =>
  rd s 0%nat (fun c =>
  if ((c >=? 0x41) &&& (c <=? 0x5a)) then
   let i := (c - 0x41) in
   utf7_mbtowc_j3 fuel base64count base64state count i k kmax state wc s n pwc ibo
  else
   if ((c >=? 0x61) &&& (c <=? 0x7a)) then
    let i := ((c - 0x61) + 0x1a) in
    utf7_mbtowc_j3 fuel base64count base64state count i k kmax state wc s n pwc ibo
   else
    if ((c >=? 0x30) &&& (c <=? 0x39)) then
     let i := ((c - 0x30) + 0x34) in
     utf7_mbtowc_j3 fuel base64count base64state count i k kmax state wc s n pwc ibo
    else
     if (c =? 0x2b) then
      let i := 0x3e in
      utf7_mbtowc_j3 fuel base64count base64state count i k kmax state wc s n pwc ibo
     else
      if (c =? 0x2f) then
       let i := 0x3f in
       utf7_mbtowc_j3 fuel base64count base64state count i k kmax state wc s n pwc ibo
      else
       if (negb ((Z.land base64state 0xfffffffc) =? 0)) then
        let ist := state in
        ck (2 * count) (fun k11 =>
        Ok (((-1) - k11), pwc, ist, ibo))
       else
        if (negb (base64count =? 0)) then
         let ist := state in
         ck (2 * count) (fun k12 =>
         Ok (((-1) - k12), pwc, ist, ibo))
        else
         if (c =? 0x2d) then
          let s := skipn 1%nat s in
          ck (count + 1) (fun k13 =>
          let count := k13 in
          utf7_mbtowc_j2 fuel count s n pwc ibo)
         else
          utf7_mbtowc_j2 fuel count s n pwc ibo)
  end
with utf7_mbtowc_j2 (fuel : nat) (count : Z) (s : list Z) (n : nat) (pwc : option Z) (ibo : Z) {struct fuel} : res (Z * option Z * Z * Z) :=
  match fuel with O => NoFuel | S fuel =>
  let state := 0 in
  utf7_mbtowc_inactive fuel count state s n pwc ibo
  end
with utf7_mbtowc_j3 (fuel : nat) (base64count : Z) (base64state : Z) (count : Z) (i : Z) (k : Z) (kmax : Z) (state : Z) (wc : Z) (s : list Z) (n : nat) (pwc : option Z) (ibo : Z) {struct fuel} : res (Z * option Z * Z * Z) :=
  match fuel with O => NoFuel | S fuel =>
  let s := skipn 1%nat s in
  let base64count := (u32 (base64count + 1)) in
  let x5 := (Z.land base64state 3) in
  if (x5 =? 1) then
   let base64state := (Z.lor (Z.shiftl i 2) 0) in
   utf7_mbtowc_j4 fuel base64count base64state count k kmax state wc s n pwc ibo
  else
   if (x5 =? 0) then
    let wc := (Z.lor (Z.lor (u32 (Z.shiftl wc 8)) (Z.land base64state 0xfffffffc)) (Z.shiftr i 4)) in
    let k := (u32 (k + 1)) in
    let base64state := (Z.lor (Z.shiftl (Z.land i 0xf) 4) 2) in
    utf7_mbtowc_j4 fuel base64count base64state count k kmax state wc s n pwc ibo
   else
    if (x5 =? 2) then
     let wc := (Z.lor (Z.lor (u32 (Z.shiftl wc 8)) (Z.land base64state 0xfffffffc)) (Z.shiftr i 2)) in
     let k := (u32 (k + 1)) in
     let base64state := (Z.lor (Z.shiftl (Z.land i 3) 6) 3) in
     utf7_mbtowc_j4 fuel base64count base64state count k kmax state wc s n pwc ibo
    else
     if (x5 =? 3) then
      let wc := (Z.lor (Z.lor (u32 (Z.shiftl wc 8)) (Z.land base64state 0xfffffffc)) i) in
      let k := (u32 (k + 1)) in
      let base64state := 1 in
      utf7_mbtowc_j4 fuel base64count base64state count k kmax state wc s n pwc ibo
     else
      utf7_mbtowc_j4 fuel base64count base64state count k kmax state wc s n pwc ibo
  end
with utf7_mbtowc_j4 (fuel : nat) (base64count : Z) (base64state : Z) (count : Z) (k : Z) (kmax : Z) (state : Z) (wc : Z) (s : list Z) (n : nat) (pwc : option Z) (ibo : Z) {struct fuel} : res (Z * option Z * Z * Z) :=
  match fuel with O => NoFuel | S fuel =>
  if (k =? kmax) then
   if ((kmax =? 2) &&& ((wc >=? 0xd800) &&& (wc <? 0xdc00))) then
    let kmax := 4 in
    utf7_mbtowc_j5 fuel base64count base64state count k kmax state wc s n pwc ibo
   else
    if ((Z.land base64state 3) =? 0) then
     Abort
    else
     if (kmax =? 4) then
      let wc1 := (Z.shiftr wc 0x10) in
      let wc2 := (Z.land wc 0xffff) in
      if (negb ((wc1 >=? 0xd800) &&& (wc1 <? 0xdc00))) then
       Abort
      else
       if (negb ((wc2 >=? 0xdc00) &&& (wc2 <? 0xe000))) then
        let ist := state in
        ck (2 * count) (fun k14 =>
        Ok (((-1) - k14), pwc, ist, ibo))
       else
        let pwc := Some (u32 ((u32 (0x10000 + (u32 (Z.shiftl (u32 (wc1 - 0xd800)) 0xa)))) + (u32 (wc2 - 0xdc00)))) in
        let ist := base64state in
        Ok ((s32 (u32 (count + base64count))), pwc, ist, ibo)
     else
      let pwc := Some wc in
      let ist := base64state in
      Ok ((s32 (u32 (count + base64count))), pwc, ist, ibo)
  else
   utf7_mbtowc_j5 fuel base64count base64state count k kmax state wc s n pwc ibo
  end
with utf7_mbtowc_j5 (fuel : nat) (base64count : Z) (base64state : Z) (count : Z) (k : Z) (kmax : Z) (state : Z) (wc : Z) (s : list Z) (n : nat) (pwc : option Z) (ibo : Z) {struct fuel} : res (Z * option Z * Z * Z) :=
  match fuel with O => NoFuel | S fuel =>
  if (Nat.ltb n (Z.to_nat (u32 ((u32 (count + base64count)) + 1)))) then
   let ist := state in
   ck (2 * count) (fun k15 =>
   ck ((-2) - k15) (fun k16 =>
   Ok (k16, pwc, ist, ibo)))
  else
   utf7_mbtowc_loop fuel base64count base64state count k kmax state wc s n pwc ibo
  end.
(* lib/converters/utf7.h:75-194 utf7_mbtowc *)
Definition utf7_mbtowc (s : list Z) (n : nat) (ist : Z) (ibo : Z) : res (Z * option Z * Z * Z) :=
  let pwc := (None : option Z) in
  let state := ist in
  let count := 0 in
  if (negb ((Z.land state 3) =? 0)) then
   utf7_mbtowc_active (8 + 4 * n)%nat count state s n pwc ibo
  else
   utf7_mbtowc_inactive (8 + 4 * n)%nat count state s n pwc ibo.

(* lib/converters/utf7.h:216-329 utf7_wctomb *)
Definition utf7_wctomb_j7 (count : Z) (wc : Z) (ro : nat) (r : wlog) : res (Z * wlog * Z) :=
  let state := 0 in
  let r := wr r ro wc in
  let ro := (Nat.add ro 1%nat) in
  let ost := state in
  Ok (count, r, ost).
(* lib/converters/utf7.h:216-329 utf7_wctomb *)
Definition utf7_wctomb_j6 (count : Z) (wc : Z) (ro : nat) (r : wlog) : res (Z * wlog * Z) :=
  if (wc <? 0x80) then
   tget xbase64_tab (Z.shiftr wc 3) (fun x5 =>
   if (negb ((Z.land (Z.shiftr x5 (Z.land wc 7)) 1) =? 0)) then
    let r := wr r ro 0x2d in
    let ro := (Nat.add ro 1%nat) in
    utf7_wctomb_j7 count wc ro r
   else
    utf7_wctomb_j7 count wc ro r)
  else
   utf7_wctomb_j7 count wc ro r.
(* lib/converters/utf7.h:216-329 utf7_wctomb *)
Definition utf7_wctomb_j5 (c : Z) (count : Z) (wc : Z) (ro : nat) (r : wlog) : res (Z * wlog * Z) :=
  let r := wr r ro c in
  let ro := (Nat.add ro 1%nat) in
  utf7_wctomb_j6 count wc ro r.
(* lib/converters/utf7.h:216-329 utf7_wctomb *)
Definition utf7_wctomb_j4 (count : Z) (state : Z) (wc : Z) (x4 : Z) (n : nat) (ro : nat) (r : wlog) (ost : Z) : res (Z * wlog * Z) :=
  let count := (count + (((if ((Z.land state 3) >=? 2) then 1 else 0) + x4) + 1)) in
  if (Nat.ltb n (Z.to_nat count)) then
   Ok ((-2), r, ost)
  else
   if ((Z.land state 3) >=? 2) then
    let i := (Z.land state 0xfffffffc) in
    if (i <? 0x1a) then
     let c := (i + 0x41) in
     utf7_wctomb_j5 c count wc ro r
    else
     if (i <? 0x34) then
      let c := ((i - 0x1a) + 0x61) in
      utf7_wctomb_j5 c count wc ro r
     else
      if (i <? 0x3e) then
       let c := ((i - 0x34) + 0x30) in
       utf7_wctomb_j5 c count wc ro r
      else
       if (i =? 0x3e) then
        let c := 0x2b in
        utf7_wctomb_j5 c count wc ro r
       else
        if (i =? 0x3f) then
         let c := 0x2f in
         utf7_wctomb_j5 c count wc ro r
        else
         Abort
   else
    utf7_wctomb_j6 count wc ro r.
(* lib/converters/utf7.h:216-329 utf7_wctomb *)
Definition utf7_wctomb_j3 (count : Z) (state : Z) (wc : Z) (n : nat) (ro : nat) (r : wlog) (ost : Z) : res (Z * wlog * Z) :=
  let x4 := 0 in
  utf7_wctomb_j4 count state wc x4 n ro r ost.
(* lib/converters/utf7.h:216-329 utf7_wctomb *)
Fixpoint utf7_wctomb_loop (fuel : nat) (count : Z) (k : Z) (state : Z) (wc : Z) (ro : nat) (r : wlog) {struct fuel} : res (Z * wlog * Z) :=
  match fuel with O => NoFuel | S fuel =>
  let x6 := (Z.land state 3) in
  if (x6 =? 0) then
   let c := (u8 (Z.shiftr (Z.land state 0xfffffffc) 2)) in
   let state := 1 in
   utf7_wctomb_j9 fuel c count k state wc ro r
  else
   if (x6 =? 1) then
    let k := (u32 (k - 1)) in
    shck (u32 (8 * k)) (fun k1 =>
    let i := (Z.land (Z.shiftr wc k1) 0xff) in
    let c := (Z.shiftr i 2) in
    let state := (Z.lor (Z.shiftl (Z.land i 3) 4) 2) in
    utf7_wctomb_j9 fuel c count k state wc ro r)
   else
    if (x6 =? 2) then
     let k := (u32 (k - 1)) in
     shck (u32 (8 * k)) (fun k2 =>
     let i := (Z.land (Z.shiftr wc k2) 0xff) in
     let c := (u8 (Z.lor (Z.land state 0xfffffffc) (Z.shiftr i 4))) in
     let state := (Z.lor (Z.shiftl (Z.land i 0xf) 2) 3) in
     utf7_wctomb_j9 fuel c count k state wc ro r)
    else
     if (x6 =? 3) then
      let k := (u32 (k - 1)) in
      shck (u32 (8 * k)) (fun k3 =>
      let i := (Z.land (Z.shiftr wc k3) 0xff) in
      let c := (u8 (Z.lor (Z.land state 0xfffffffc) (Z.shiftr i 6))) in
      let state := (Z.lor (Z.shiftl (Z.land i 0x3f) 2) 0) in
      utf7_wctomb_j9 fuel c count k state wc ro r)
     else
      Abort
  end
with utf7_wctomb_j9 (fuel : nat) (c : Z) (count : Z) (k : Z) (state : Z) (wc : Z) (ro : nat) (r : wlog) {struct fuel} : res (Z * wlog * Z) :=
  match fuel with O => NoFuel | S fuel =>
  if (c <? 0x1a) then
   let c := (c + 0x41) in
   utf7_wctomb_j10 fuel c count k state wc ro r
  else
   if (c <? 0x34) then
    let c := ((c - 0x1a) + 0x61) in
    utf7_wctomb_j10 fuel c count k state wc ro r
   else
    if (c <? 0x3e) then
     let c := ((c - 0x34) + 0x30) in
     utf7_wctomb_j10 fuel c count k state wc ro r
    else
     if (c =? 0x3e) then
      let c := 0x2b in
      utf7_wctomb_j10 fuel c count k state wc ro r
     else
      if (c =? 0x3f) then
       let c := 0x2f in
       utf7_wctomb_j10 fuel c count k state wc ro r
      else
       Abort
  end
with utf7_wctomb_j10 (fuel : nat) (c : Z) (count : Z) (k : Z) (state : Z) (wc : Z) (ro : nat) (r : wlog) {struct fuel} : res (Z * wlog * Z) :=
  match fuel with O => NoFuel | S fuel =>
  let r := wr r ro c in
  let ro := (Nat.add ro 1%nat) in
  if ((negb ((Z.land state 3) =? 0)) &&& (k =? 0)) then
   let ost := state in
   Ok (count, r, ost)
  else
   utf7_wctomb_loop fuel count k state wc ro r
  end.
(* lib/converters/utf7.h:216-329 utf7_wctomb *)
Definition utf7_wctomb_j8 (count : Z) (k : Z) (state : Z) (wc : Z) (n : nat) (ro : nat) (r : wlog) (ost : Z) : res (Z * wlog * Z) :=
  if (Nat.ltb n (Z.to_nat count)) then
   Ok ((-2), r, ost)
  else
   utf7_wctomb_loop 64%nat count k state wc ro r.
(* lib/converters/utf7.h:216-329 utf7_wctomb *)
Definition utf7_wctomb_j2 (count : Z) (state : Z) (wc : Z) (n : nat) (ro : nat) (r : wlog) (ost : Z) : res (Z * wlog * Z) :=
  if (wc <? 0x10000) then
   let k := 2 in
   let count := (count + (if ((Z.land state 3) >=? 2) then 3 else 2)) in
   utf7_wctomb_j8 count k state wc n ro r ost
  else
   if (wc <? 0x110000) then
    let wc1 := (0xd800 + (Z.shiftr (wc - 0x10000) 0xa)) in
    let wc2 := (0xdc00 + (Z.land (wc - 0x10000) 0x3ff)) in
    let wc := (Z.lor (Z.shiftl wc1 0x10) wc2) in
    let k := 4 in
    let count := (count + (if ((Z.land state 3) >=? 3) then 6 else 5)) in
    utf7_wctomb_j8 count k state wc n ro r ost
   else
    Ok ((-1), r, ost).
(* lib/converters/utf7.h:216-329 utf7_wctomb *)
Definition utf7_wctomb_active (count : Z) (state : Z) (wc : Z) (n : nat) (ro : nat) (r : wlog) (ost : Z) : res (Z * wlog * Z) :=
  if (wc <? 0x80) then
   tget direct_tab (Z.shiftr wc 3) (fun x2 =>
   if (negb ((Z.land (Z.shiftr x2 (Z.land wc 7)) 1) =? 0)) then
    if (wc <? 0x80) then
     tget xbase64_tab (Z.shiftr wc 3) (fun x3 =>
     if (negb ((Z.land (Z.shiftr x3 (Z.land wc 7)) 1) =? 0)) then
      let x4 := 1 in
      utf7_wctomb_j4 count state wc x4 n ro r ost
     else
      utf7_wctomb_j3 count state wc n ro r ost)
    else
     utf7_wctomb_j3 count state wc n ro r ost
   else
    utf7_wctomb_j2 count state wc n ro r ost)
  else
   utf7_wctomb_j2 count state wc n ro r ost.
(* lib/converters/utf7.h:216-329 utf7_wctomb *)
Definition utf7_wctomb_j (wc : Z) (n : nat) (ro : nat) (r : wlog) (ost : Z) : res (Z * wlog * Z) :=
  let r := wr r ro 0x2b in
  let ro := (Nat.add ro 1%nat) in
  if (wc =? 0x2b) then
   if (Nat.ltb n 2%nat) then
    Ok ((-2), r, ost)
   else
    let r := wr r ro 0x2d in
    Ok (2, r, ost)
  else
   let count := 1 in
   let state := 1 in
   utf7_wctomb_active count state wc n ro r ost.
(* lib/converters/utf7.h:216-329 utf7_wctomb *)
Definition utf7_wctomb (iwc : Z) (n : nat) (ost : Z) : res (Z * wlog * Z) :=
  let r := ([] : wlog) in
  let ro := 0%nat in
  let state := ost in
  let wc := iwc in
  let count := 0 in
  if (negb ((Z.land state 3) =? 0)) then
   utf7_wctomb_active count state wc n ro r ost
  else
   if (wc <? 0x80) then
    tget direct_tab (Z.shiftr wc 3) (fun x1 =>
    if (negb ((Z.land (Z.shiftr x1 (Z.land wc 7)) 1) =? 0)) then
     let r := wr r ro wc in
     Ok (1, r, ost)
    else
     utf7_wctomb_j wc n ro r ost)
   else
    utf7_wctomb_j wc n ro r ost.

(* lib/converters/utf7.h:331-362 utf7_reset *)
Definition utf7_reset_j (c : Z) (count : Z) (ro : nat) (r : wlog) (ost : Z) : res (Z * wlog * Z) :=
  let r := wr r ro c in
  let ro := (Nat.add ro 1%nat) in
  let r := wr r ro 0x2d in
  let ro := (Nat.add ro 1%nat) in
  Ok (count, r, ost).
(* lib/converters/utf7.h:331-362 utf7_reset *)
Definition utf7_reset (n : nat) (ost : Z) : res (Z * wlog * Z) :=
  let r := ([] : wlog) in
  let ro := 0%nat in
  let state := ost in
  if (negb ((Z.land state 3) =? 0)) then
   let count := ((if ((Z.land state 3) >=? 2) then 1 else 0) + 1) in
   if (Nat.ltb n (Z.to_nat count)) then
    Ok ((-2), r, ost)
   else
    if ((Z.land state 3) >=? 2) then
     let i := (Z.land state 0xfffffffc) in
     if (i <? 0x1a) then
      let c := (i + 0x41) in
      utf7_reset_j c count ro r ost
     else
      if (i <? 0x34) then
       let c := ((i - 0x1a) + 0x61) in
       utf7_reset_j c count ro r ost
      else
       if (i <? 0x3e) then
        let c := ((i - 0x34) + 0x30) in
        utf7_reset_j c count ro r ost
       else
        if (i =? 0x3e) then
         let c := 0x2b in
         utf7_reset_j c count ro r ost
        else
         if (i =? 0x3f) then
          let c := 0x2f in
          utf7_reset_j c count ro r ost
         else
          Abort
    else
     let r := wr r ro 0x2d in
     let ro := (Nat.add ro 1%nat) in
     Ok (count, r, ost)
  else
   Ok (0, r, ost).

(* lib/converters/utf8.h:32-76 utf8_mbtowc *)
Definition utf8_mbtowc_j (c : Z) (x4 : Z) (x5 : Z) (pwc : option Z) : res (Z * option Z) :=
  if (negb (c =? 0xed)) then
   let pwc := Some (Z.lor (Z.lor (Z.shiftl (Z.land c 0xf) 0xc) (Z.shiftl (Z.lxor x4 0x80) 6)) (Z.lxor x5 0x80)) in
   Ok (3, pwc)
  else
   if (x4 <? 0xa0) then
    let pwc := Some (Z.lor (Z.lor (Z.shiftl (Z.land c 0xf) 0xc) (Z.shiftl (Z.lxor x4 0x80) 6)) (Z.lxor x5 0x80)) in
    Ok (3, pwc)
   else
    Ok ((-1), pwc).
(* lib/converters/utf8.h:32-76 utf8_mbtowc *)
Definition utf8_mbtowc_j2 (c : Z) (x10 : Z) (x11 : Z) (x12 : Z) (pwc : option Z) : res (Z * option Z) :=
  if (c <? 0xf4) then
   let pwc := Some (Z.lor (Z.lor (Z.lor (Z.shiftl (Z.land c 7) 0x12) (Z.shiftl (Z.lxor x10 0x80) 0xc)) (Z.shiftl (Z.lxor x11 0x80) 6)) (Z.lxor x12 0x80)) in
   Ok (4, pwc)
  else
   if (c =? 0xf4) then
    if (x10 <? 0x90) then
     let pwc := Some (Z.lor (Z.lor (Z.lor (Z.shiftl (Z.land c 7) 0x12) (Z.shiftl (Z.lxor x10 0x80) 0xc)) (Z.shiftl (Z.lxor x11 0x80) 6)) (Z.lxor x12 0x80)) in
     Ok (4, pwc)
    else
     Ok ((-1), pwc)
   else
    Ok ((-1), pwc).
(* lib/converters/utf8.h:32-76 utf8_mbtowc *)
Definition utf8_mbtowc (s : list Z) (n : nat) : res (Z * option Z) :=
  let pwc := (None : option Z) in
  rd s 0%nat (fun c =>
  if (c <? 0x80) then
   let pwc := Some c in
   Ok (1, pwc)
  else
   if (c <? 0xc2) then
    Ok ((-1), pwc)
   else
    if (c <? 0xe0) then
     if (Nat.ltb n 2%nat) then
      Ok ((-2), pwc)
     else
      rd s 1%nat (fun x2 =>
      if ((Z.lxor x2 0x80) <? 0x40) then
       let pwc := Some (Z.lor (Z.shiftl (Z.land c 0x1f) 6) (Z.lxor x2 0x80)) in
       Ok (2, pwc)
      else
       Ok ((-1), pwc))
    else
     if (c <? 0xf0) then
      if (Nat.ltb n 3%nat) then
       Ok ((-2), pwc)
      else
       rd s 1%nat (fun x4 =>
       if ((Z.lxor x4 0x80) <? 0x40) then
        rd s 2%nat (fun x5 =>
        if ((Z.lxor x5 0x80) <? 0x40) then
         if (c >=? 0xe1) then
          utf8_mbtowc_j c x4 x5 pwc
         else
          if (x4 >=? 0xa0) then
           utf8_mbtowc_j c x4 x5 pwc
          else
           Ok ((-1), pwc)
        else
         Ok ((-1), pwc))
       else
        Ok ((-1), pwc))
     else
      if ((c <? 0xf8) &&& (0x20 >=? 0x20)) then
       if (Nat.ltb n 4%nat) then
        Ok ((-2), pwc)
       else
        rd s 1%nat (fun x10 =>
        if ((Z.lxor x10 0x80) <? 0x40) then
         rd s 2%nat (fun x11 =>
         if ((Z.lxor x11 0x80) <? 0x40) then
          rd s 3%nat (fun x12 =>
          if ((Z.lxor x12 0x80) <? 0x40) then
           if (c >=? 0xf1) then
            utf8_mbtowc_j2 c x10 x11 x12 pwc
           else
            if (x10 >=? 0x90) then
             utf8_mbtowc_j2 c x10 x11 x12 pwc
            else
             Ok ((-1), pwc)
          else
           Ok ((-1), pwc))
         else
          Ok ((-1), pwc))
        else
         Ok ((-1), pwc))
      else
       Ok ((-1), pwc)).

(* lib/converters/utf8.h:78-104 utf8_wctomb *)
Definition utf8_wctomb_j4 (count : Z) (wc : Z) (r : wlog) : res (Z * wlog) :=
  let r := wr r 0%nat (u8 wc) in
  Ok (count, r).
(* lib/converters/utf8.h:78-104 utf8_wctomb *)
Definition utf8_wctomb_j3 (count : Z) (wc : Z) (r : wlog) : res (Z * wlog) :=
  let r := wr r 1%nat (Z.lor 0x80 (Z.land wc 0x3f)) in
  let wc := (Z.shiftr wc 6) in
  let wc := (Z.lor wc 0xc0) in
  utf8_wctomb_j4 count wc r.
(* lib/converters/utf8.h:78-104 utf8_wctomb *)
Definition utf8_wctomb_j2 (count : Z) (wc : Z) (r : wlog) : res (Z * wlog) :=
  let r := wr r 2%nat (Z.lor 0x80 (Z.land wc 0x3f)) in
  let wc := (Z.shiftr wc 6) in
  let wc := (Z.lor wc 0x800) in
  utf8_wctomb_j3 count wc r.
(* lib/converters/utf8.h:78-104 utf8_wctomb *)
Definition utf8_wctomb_j (count : Z) (wc : Z) (n : nat) (r : wlog) : res (Z * wlog) :=
  if (Nat.ltb n (Z.to_nat count)) then
   Ok ((-2), r)
  else
   if (count =? 4) then
    let r := wr r 3%nat (Z.lor 0x80 (Z.land wc 0x3f)) in
    let wc := (Z.shiftr wc 6) in
    let wc := (Z.lor wc 0x10000) in
    utf8_wctomb_j2 count wc r
   else
    if (count =? 3) then
     utf8_wctomb_j2 count wc r
    else
     if (count =? 2) then
      utf8_wctomb_j3 count wc r
     else
      if (count =? 1) then
       utf8_wctomb_j4 count wc r
      else
       Ok (count, r).
(* lib/converters/utf8.h:78-104 utf8_wctomb *)
Definition utf8_wctomb (wc : Z) (n : nat) : res (Z * wlog) :=
  let r := ([] : wlog) in
  if (wc <? 0x80) then
   let count := 1 in
   utf8_wctomb_j count wc n r
  else
   if (wc <? 0x800) then
    let count := 2 in
    utf8_wctomb_j count wc n r
   else
    if (wc <? 0x10000) then
     if ((wc <? 0xd800) ||| (wc >=? 0xe000)) then
      let count := 3 in
      utf8_wctomb_j count wc n r
     else
      Ok ((-1), r)
    else
     if (wc <? 0x110000) then
      let count := 4 in
      utf8_wctomb_j count wc n r
     else
      Ok ((-1), r).

(* lib/converters/flushwc.h:30-41 normal_flushwc *)
Definition normal_flushwc (ist : Z) : res (Z * option Z * Z) :=
  let pwc := (None : option Z) in
  let last_wc := ist in
  if (negb (last_wc =? 0)) then
   let ist := 0 in
   let pwc := Some last_wc in
   Ok (1, pwc, ist)
  else
   Ok (0, pwc, ist).

