(** GENERATED by tools/gen.py from /repo/lib/converters; do not edit.
    Converter functions, one definition per basic block that is reached from several places. *)
From Coq Require Import ZArith List Bool.
From Verif Require Import Base Tab_ks Conv_uni.
Import ListNotations.
Open Scope Z_scope.

(* lib/converters/johab_hangul.h:114-184 johab_hangul_mbtowc *)
Definition johab_hangul_mbtowc (s : list Z) (n : nat) : res (Z * option Z) :=
  let pwc := (None : option Z) in
  rd s 0%nat (fun c1 =>
  if ((c1 >=? 0x84) &&& (c1 <=? 0xd3)) then
   if (Nat.leb 2%nat n) then
    rd s 1%nat (fun c2 =>
    if (((c2 >=? 0x41) &&& (c2 <? 0x7f)) ||| ((c2 >=? 0x81) &&& (c2 <? 0xff))) then
     let johab := (Z.lor (Z.shiftl c1 8) c2) in
     let bitspart1 := (Z.land (Z.shiftr johab 0xa) 0x1f) in
     let bitspart2 := (Z.land (Z.shiftr johab 5) 0x1f) in
     let bitspart3 := (Z.land johab 0x1f) in
     tget jamo_initial_index bitspart1 (fun x3 =>
     let index1 := x3 in
     tget jamo_medial_index bitspart2 (fun x4 =>
     let index2 := x4 in
     tget jamo_final_index bitspart3 (fun x5 =>
     let index3 := x5 in
     if (((index1 >=? 0) &&& (index2 >=? 0)) &&& (index3 >=? 0)) then
      if (index1 =? 0) then
       if (index2 =? 0) then
        tget jamo_final_notinitial bitspart3 (fun jamo3 =>
        if (negb (jamo3 =? 0xfd)) then
         let pwc := Some (0x3130 + jamo3) in
         Ok (2, pwc)
        else
         Ok ((-1), pwc))
       else
        if (index3 =? 0) then
         tget jamo_medial bitspart2 (fun jamo2 =>
         if ((negb (jamo2 =? 0xfd)) &&& (negb (jamo2 =? 0xff))) then
          let pwc := Some (0x3130 + jamo2) in
          Ok (2, pwc)
         else
          Ok ((-1), pwc))
        else
         Ok ((-1), pwc)
      else
       if (index2 =? 0) then
        if (index3 =? 0) then
         tget jamo_initial bitspart1 (fun jamo1 =>
         if ((negb (jamo1 =? 0xfd)) &&& (negb (jamo1 =? 0xff))) then
          let pwc := Some (0x3130 + jamo1) in
          Ok (2, pwc)
         else
          Ok ((-1), pwc))
        else
         Ok ((-1), pwc)
       else
        let pwc := Some ((0xac00 + ((((index1 - 1) * 0x15) + (index2 - 1)) * 0x1c)) + index3) in
        Ok (2, pwc)
     else
      Ok ((-1), pwc))))
    else
     Ok ((-1), pwc))
   else
    Ok ((-2), pwc)
  else
   Ok ((-1), pwc)).

(* lib/converters/johab_hangul.h:222-254 johab_hangul_wctomb *)
Definition johab_hangul_wctomb (wc : Z) (n : nat) : res (Z * wlog) :=
  let r := ([] : wlog) in
  if (Nat.leb 2%nat n) then
   if ((wc >=? 0x3131) &&& (wc <? 0x3164)) then
    tget johab_hangul_page31 (wc - 0x3131) (fun c =>
    let r := wr r 0%nat (Z.shiftr c 8) in
    let r := wr r 1%nat (Z.land c 0xff) in
    Ok (2, r))
   else
    if ((wc >=? 0xac00) &&& (wc <? 0xd7a4)) then
     let tmp := (wc - 0xac00) in
     let index3 := (tmp mod 0x1c) in
     let tmp := (tmp / 0x1c) in
     let index2 := (tmp mod 0x15) in
     let tmp := (tmp / 0x15) in
     let index1 := tmp in
     tget jamo_initial_index_inverse index1 (fun x2 =>
     tget jamo_medial_index_inverse index2 (fun x3 =>
     tget jamo_final_index_inverse index3 (fun x4 =>
     let c := (Z.lor (Z.shiftl (Z.lor (Z.shiftl (Z.lor (Z.shiftl 1 5) x2) 5) x3) 5) x4) in
     let r := wr r 0%nat (Z.shiftr c 8) in
     let r := wr r 1%nat (Z.land c 0xff) in
     Ok (2, r))))
    else
     Ok ((-1), r)
  else
   Ok ((-2), r).

(* lib/converters/johab_hangul.h:263-290 johab_hangul_decompose *)
Definition johab_hangul_decompose_j2 (jamo3 : Z) (ro : nat) (r : wlog) : res (Z * wlog) :=
  if (negb (jamo3 =? 0xff)) then
   let r := wr r ro (0x3130 + jamo3) in
   let ro := (Nat.add ro 1%nat) in
   Ok ((Z.of_nat ro), r)
  else
   Ok ((Z.of_nat ro), r).
(* lib/converters/johab_hangul.h:263-290 johab_hangul_decompose *)
Definition johab_hangul_decompose_j (jamo2 : Z) (jamo3 : Z) (ro : nat) (r : wlog) : res (Z * wlog) :=
  if (negb (jamo2 =? 0xff)) then
   let r := wr r ro (0x3130 + jamo2) in
   let ro := (Nat.add ro 1%nat) in
   johab_hangul_decompose_j2 jamo3 ro r
  else
   johab_hangul_decompose_j2 jamo3 ro r.
(* lib/converters/johab_hangul.h:263-290 johab_hangul_decompose *)
Definition johab_hangul_decompose (wc : Z) : res (Z * wlog) :=
  let r := ([] : wlog) in
  let ro := 0%nat in
  let buf := ([] : wlog) in
  bind (johab_hangul_wctomb wc 2%nat) (fun '(ret, l) =>
  lappb 2%nat buf 0%nat l (fun buf =>
  if (negb (ret =? (-1))) then
   lrd buf 0%nat (fun x2 =>
   lrd buf 1%nat (fun x3 =>
   let hangul := (Z.lor (Z.shiftl x2 8) x3) in
   tget jamo_initial (Z.land (Z.shiftr hangul 0xa) 0x1f) (fun jamo1 =>
   tget jamo_medial (Z.land (Z.shiftr hangul 5) 0x1f) (fun jamo2 =>
   tget jamo_final (Z.land hangul 0x1f) (fun jamo3 =>
   if (negb ((Z.shiftr hangul 0xf) =? 1)) then
    Abort
   else
    if (((negb (jamo1 =? 0xfd)) &&& (negb (jamo2 =? 0xfd))) &&& (negb (jamo3 =? 0xfd))) then
     if (negb (jamo1 =? 0xff)) then
      let r := wr r ro (0x3130 + jamo1) in
      let ro := (Nat.add ro 1%nat) in
      johab_hangul_decompose_j jamo2 jamo3 ro r
     else
      johab_hangul_decompose_j jamo2 jamo3 ro r
    else
     Ok ((-1), r))))))
  else
   Ok ((-1), r))).

(* lib/converters/ksc5601.h:1193-1231 ksc5601_mbtowc *)
Definition ksc5601_mbtowc_j (wc : Z) (pwc : option Z) : res (Z * option Z) :=
  if (negb (wc =? 0xfffd)) then
   let pwc := Some wc in
   Ok (2, pwc)
  else
   Ok ((-1), pwc).
(* lib/converters/ksc5601.h:1193-1231 ksc5601_mbtowc *)
Definition ksc5601_mbtowc (s : list Z) (n : nat) : res (Z * option Z) :=
  let pwc := (None : option Z) in
  rd s 0%nat (fun c1 =>
  if ((((c1 >=? 0x21) &&& (c1 <=? 0x2c)) ||| ((c1 >=? 0x30) &&& (c1 <=? 0x48))) ||| ((c1 >=? 0x4a) &&& (c1 <=? 0x7d))) then
   if (Nat.leb 2%nat n) then
    rd s 1%nat (fun c2 =>
    if ((c2 >=? 0x21) &&& (c2 <? 0x7f)) then
     let i := ((0x5e * (c1 - 0x21)) + (c2 - 0x21)) in
     let wc := 0xfffd in
     if (i <? 0x582) then
      if (i <? 0x45b) then
       tget ksc5601_2uni_page21 i (fun wc =>
       ksc5601_mbtowc_j wc pwc)
      else
       ksc5601_mbtowc_j wc pwc
     else
      if (i <? 0xf0e) then
       if (i <? 0xeb0) then
        tget ksc5601_2uni_page30 (i - 0x582) (fun wc =>
        ksc5601_mbtowc_j wc pwc)
       else
        ksc5601_mbtowc_j wc pwc
      else
       if (i <? 0x2226) then
        tget ksc5601_2uni_page4a (i - 0xf0e) (fun wc =>
        ksc5601_mbtowc_j wc pwc)
       else
        ksc5601_mbtowc_j wc pwc
    else
     Ok ((-1), pwc))
   else
    Ok ((-2), pwc)
  else
   Ok ((-1), pwc)).

(* lib/converters/ksc5601.h:2996-3038 ksc5601_wctomb *)
Definition ksc5601_wctomb_j (summary : option (tab * Z)) (wc : Z) (r : wlog) : res (Z * wlog) :=
  if (negb (isnull summary)) then
   sget summary 1 (fun used =>
   let i := (Z.land wc 0xf) in
   if (negb ((Z.land used (Z.shiftl 1 i)) =? 0)) then
    let used := (Z.land used ((Z.shiftl 1 i) - 1)) in
    let used := ((Z.land used 0x5555) + (Z.shiftr (Z.land used 0xaaaa) 1)) in
    let used := ((Z.land used 0x3333) + (Z.shiftr (Z.land used 0xcccc) 2)) in
    let used := ((Z.land used 0xf0f) + (Z.shiftr (Z.land used 0xf0f0) 4)) in
    let used := ((Z.land used 0xff) + (Z.shiftr used 8)) in
    sget summary 0 (fun x2 =>
    tget ksc5601_2charset (x2 + used) (fun c =>
    let r := wr r 0%nat (Z.shiftr c 8) in
    let r := wr r 1%nat (Z.land c 0xff) in
    Ok (2, r)))
   else
    Ok ((-1), r))
  else
   Ok ((-1), r).
(* lib/converters/ksc5601.h:2996-3038 ksc5601_wctomb *)
Definition ksc5601_wctomb (wc : Z) (n : nat) : res (Z * wlog) :=
  let r := ([] : wlog) in
  if (Nat.leb 2%nat n) then
   let summary := (None : option (tab * Z)) in
   if ((wc >=? 0) &&& (wc <? 0x460)) then
    let summary := Some (ksc5601_uni2indx_page00, (Z.shiftr wc 4)) in
    ksc5601_wctomb_j summary wc r
   else
    if ((wc >=? 0x2000) &&& (wc <? 0x2670)) then
     let summary := Some (ksc5601_uni2indx_page20, ((Z.shiftr wc 4) - 0x200)) in
     ksc5601_wctomb_j summary wc r
    else
     if ((wc >=? 0x3000) &&& (wc <? 0x33e0)) then
      let summary := Some (ksc5601_uni2indx_page30, ((Z.shiftr wc 4) - 0x300)) in
      ksc5601_wctomb_j summary wc r
     else
      if ((wc >=? 0x4e00) &&& (wc <? 0x9fa0)) then
       let summary := Some (ksc5601_uni2indx_page4e, ((Z.shiftr wc 4) - 0x4e0)) in
       ksc5601_wctomb_j summary wc r
      else
       if ((wc >=? 0xac00) &&& (wc <? 0xd7a0)) then
        let summary := Some (ksc5601_uni2indx_pageac, ((Z.shiftr wc 4) - 0xac0)) in
        ksc5601_wctomb_j summary wc r
       else
        if ((wc >=? 0xf900) &&& (wc <? 0xfa10)) then
         let summary := Some (ksc5601_uni2indx_pagef9, ((Z.shiftr wc 4) - 0xf90)) in
         ksc5601_wctomb_j summary wc r
        else
         if ((wc >=? 0xff00) &&& (wc <? 0xfff0)) then
          let summary := Some (ksc5601_uni2indx_pageff, ((Z.shiftr wc 4) - 0xff0)) in
          ksc5601_wctomb_j summary wc r
         else
          ksc5601_wctomb_j summary wc r
  else
   Ok ((-2), r).

(* lib/converters/uhc_1.h:811-835 uhc_1_mbtowc *)
Definition uhc_1_mbtowc (s : list Z) (n : nat) : res (Z * option Z) :=
  let pwc := (None : option Z) in
  rd s 0%nat (fun c1 =>
  if ((c1 >=? 0x81) &&& (c1 <=? 0xa0)) then
   if (Nat.leb 2%nat n) then
    rd s 1%nat (fun c2 =>
    if ((((c2 >=? 0x41) &&& (c2 <? 0x5b)) ||| ((c2 >=? 0x61) &&& (c2 <? 0x7b))) ||| ((c2 >=? 0x81) &&& (c2 <? 0xff))) then
     let row := (c1 - 0x81) in
     let col := (u32 (c2 - (if (c2 >=? 0x81) then 0x4d else (if (c2 >=? 0x61) then 0x47 else 0x41)))) in
     let i := (u32 ((0xb2 * row) + col)) in
     if (i <? 0x1640) then
      tget uhc_1_2uni_main_page81 ((2 * row) + (if (col >=? 0x59) then 1 else 0)) (fun x3 =>
      tget uhc_1_2uni_page81 i (fun x4 =>
      let pwc := Some (x3 + x4) in
      Ok (2, pwc)))
     else
      Ok ((-1), pwc)
    else
     Ok ((-1), pwc))
   else
    Ok ((-2), pwc)
  else
   Ok ((-1), pwc)).

(* lib/converters/uhc_1.h:1707-1736 uhc_1_wctomb *)
Definition uhc_1_wctomb (wc : Z) (n : nat) : res (Z * wlog) :=
  let r := ([] : wlog) in
  if (Nat.leb 2%nat n) then
   if ((wc >=? 0xac00) &&& (wc <? 0xc8b0)) then
    let summary := Some (uhc_1_uni2indx_pageac, ((Z.shiftr wc 4) - 0xac0)) in
    sget summary 1 (fun used =>
    let i := (Z.land wc 0xf) in
    if (negb ((Z.land used (Z.shiftl 1 i)) =? 0)) then
     let used := (Z.land used ((Z.shiftl 1 i) - 1)) in
     let used := ((Z.land used 0x5555) + (Z.shiftr (Z.land used 0xaaaa) 1)) in
     let used := ((Z.land used 0x3333) + (Z.shiftr (Z.land used 0xcccc) 2)) in
     let used := ((Z.land used 0xf0f) + (Z.shiftr (Z.land used 0xf0f0) 4)) in
     let used := ((Z.land used 0xff) + (Z.shiftr used 8)) in
     sget summary 0 (fun x2 =>
     let used := (u16 (used + x2)) in
     tget uhc_1_2charset_main (Z.shiftr used 7) (fun x3 =>
     tget uhc_1_2charset used (fun x4 =>
     let c := (x3 + x4) in
     let r := wr r 0%nat (Z.shiftr c 8) in
     let r := wr r 1%nat (Z.land c 0xff) in
     Ok (2, r))))
    else
     Ok ((-1), r))
   else
    Ok ((-1), r)
  else
   Ok ((-2), r).

(* lib/converters/uhc_2.h:493-517 uhc_2_mbtowc *)
Definition uhc_2_mbtowc (s : list Z) (n : nat) : res (Z * option Z) :=
  let pwc := (None : option Z) in
  rd s 0%nat (fun c1 =>
  if ((c1 >=? 0xa1) &&& (c1 <=? 0xc6)) then
   if (Nat.leb 2%nat n) then
    rd s 1%nat (fun c2 =>
    if ((((c2 >=? 0x41) &&& (c2 <? 0x5b)) ||| ((c2 >=? 0x61) &&& (c2 <? 0x7b))) ||| ((c2 >=? 0x81) &&& (c2 <? 0xa1))) then
     let row := (c1 - 0xa1) in
     let col := (u32 (c2 - (if (c2 >=? 0x81) then 0x4d else (if (c2 >=? 0x61) then 0x47 else 0x41)))) in
     let i := (u32 ((0x54 * row) + col)) in
     if (i <? 0xc36) then
      tget uhc_2_2uni_main_pagea1 ((2 * row) + (if (col >=? 0x2a) then 1 else 0)) (fun x3 =>
      tget uhc_2_2uni_pagea1 i (fun x4 =>
      let pwc := Some (x3 + x4) in
      Ok (2, pwc)))
     else
      Ok ((-1), pwc)
    else
     Ok ((-1), pwc))
   else
    Ok ((-2), pwc)
  else
   Ok ((-1), pwc)).

(* lib/converters/uhc_2.h:1004-1033 uhc_2_wctomb *)
Definition uhc_2_wctomb (wc : Z) (n : nat) : res (Z * wlog) :=
  let r := ([] : wlog) in
  if (Nat.leb 2%nat n) then
   if ((wc >=? 0xc800) &&& (wc <? 0xd7b0)) then
    let summary := Some (uhc_2_uni2indx_pagec8, ((Z.shiftr wc 4) - 0xc80)) in
    sget summary 1 (fun used =>
    let i := (Z.land wc 0xf) in
    if (negb ((Z.land used (Z.shiftl 1 i)) =? 0)) then
     let used := (Z.land used ((Z.shiftl 1 i) - 1)) in
     let used := ((Z.land used 0x5555) + (Z.shiftr (Z.land used 0xaaaa) 1)) in
     let used := ((Z.land used 0x3333) + (Z.shiftr (Z.land used 0xcccc) 2)) in
     let used := ((Z.land used 0xf0f) + (Z.shiftr (Z.land used 0xf0f0) 4)) in
     let used := ((Z.land used 0xff) + (Z.shiftr used 8)) in
     sget summary 0 (fun x2 =>
     let used := (u16 (used + x2)) in
     tget uhc_2_2charset_main (Z.shiftr used 6) (fun x3 =>
     tget uhc_2_2charset used (fun x4 =>
     let c := (x3 + x4) in
     let r := wr r 0%nat (Z.shiftr c 8) in
     let r := wr r 1%nat (Z.land c 0xff) in
     Ok (2, r))))
    else
     Ok ((-1), r))
   else
    Ok ((-1), r)
  else
   Ok ((-2), r).

