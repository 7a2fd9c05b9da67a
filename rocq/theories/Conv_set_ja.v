(** GENERATED by tools/gen.py from /repo/lib/converters; do not edit.
    Converter functions, one definition per basic block that is reached from several places. *)
From Coq Require Import ZArith List Bool.
From Verif Require Import Base Tab_jis Conv_uni.
Import ListNotations.
Open Scope Z_scope.

(* lib/converters/iso646_jp.h:36-50 iso646_jp_mbtowc *)
Definition iso646_jp_mbtowc (s : list Z) (n : nat) : res (Z * option Z) :=
  let pwc := (None : option Z) in
  rd s 0%nat (fun c =>
  if (c <? 0x80) then
   if (c =? 0x5c) then
    let pwc := Some 0xa5 in
    Ok (1, pwc)
   else
    if (c =? 0x7e) then
     let pwc := Some 0x203e in
     Ok (1, pwc)
    else
     let pwc := Some c in
     Ok (1, pwc)
  else
   Ok ((-1), pwc)).

(* lib/converters/iso646_jp.h:52-70 iso646_jp_wctomb *)
Definition iso646_jp_wctomb (wc : Z) (n : nat) : res (Z * wlog) :=
  let r := ([] : wlog) in
  if ((wc <? 0x80) &&& (negb ((wc =? 0x5c) ||| (wc =? 0x7e)))) then
   let r := wr r 0%nat wc in
   Ok (1, r)
  else
   if (wc =? 0xa5) then
    let r := wr r 0%nat 0x5c in
    Ok (1, r)
   else
    if (wc =? 0x203e) then
     let r := wr r 0%nat 0x7e in
     Ok (1, r)
    else
     Ok ((-1), r).

(* lib/converters/jisx0201.h:30-52 jisx0201_mbtowc *)
Definition jisx0201_mbtowc (s : list Z) (n : nat) : res (Z * option Z) :=
  let pwc := (None : option Z) in
  rd s 0%nat (fun c =>
  if (c <? 0x80) then
   if (c =? 0x5c) then
    let pwc := Some 0xa5 in
    Ok (1, pwc)
   else
    if (c =? 0x7e) then
     let pwc := Some 0x203e in
     Ok (1, pwc)
    else
     let pwc := Some c in
     Ok (1, pwc)
  else
   if ((c >=? 0xa1) &&& (c <? 0xe0)) then
    let pwc := Some (c + 0xfec0) in
    Ok (1, pwc)
   else
    Ok ((-1), pwc)).

(* lib/converters/jisx0201.h:54-77 jisx0201_wctomb *)
Definition jisx0201_wctomb (wc : Z) (n : nat) : res (Z * wlog) :=
  let r := ([] : wlog) in
  if ((wc <? 0x80) &&& (negb ((wc =? 0x5c) ||| (wc =? 0x7e)))) then
   let r := wr r 0%nat wc in
   Ok (1, r)
  else
   if (wc =? 0xa5) then
    let r := wr r 0%nat 0x5c in
    Ok (1, r)
   else
    if (wc =? 0x203e) then
     let r := wr r 0%nat 0x7e in
     Ok (1, r)
    else
     if ((wc >=? 0xff61) &&& (wc <? 0xffa0)) then
      let r := wr r 0%nat (wc - 0xfec0) in
      Ok (1, r)
     else
      Ok ((-1), r).

(* lib/converters/jisx0208.h:1017-1044 jisx0208_mbtowc *)
Definition jisx0208_mbtowc_j (wc : Z) (pwc : option Z) : res (Z * option Z) :=
  if (negb (wc =? 0xfffd)) then
   let pwc := Some wc in
   Ok (2, pwc)
  else
   Ok ((-1), pwc).
(* lib/converters/jisx0208.h:1017-1044 jisx0208_mbtowc *)
Definition jisx0208_mbtowc (s : list Z) (n : nat) : res (Z * option Z) :=
  let pwc := (None : option Z) in
  rd s 0%nat (fun c1 =>
  if (((c1 >=? 0x21) &&& (c1 <=? 0x28)) ||| ((c1 >=? 0x30) &&& (c1 <=? 0x74))) then
   if (Nat.leb 2%nat n) then
    rd s 1%nat (fun c2 =>
    if ((c2 >=? 0x21) &&& (c2 <? 0x7f)) then
     let i := ((0x5e * (c1 - 0x21)) + (c2 - 0x21)) in
     let wc := 0xfffd in
     if (i <? 0x582) then
      if (i <? 0x2b2) then
       tget jisx0208_2uni_page21 i (fun wc =>
       jisx0208_mbtowc_j wc pwc)
      else
       jisx0208_mbtowc_j wc pwc
     else
      if (i <? 0x1e80) then
       tget jisx0208_2uni_page30 (i - 0x582) (fun wc =>
       jisx0208_mbtowc_j wc pwc)
      else
       jisx0208_mbtowc_j wc pwc
    else
     Ok ((-1), pwc))
   else
    Ok ((-2), pwc)
  else
   Ok ((-1), pwc)).

(* lib/converters/jisx0208.h:2381-2423 jisx0208_wctomb *)
Definition jisx0208_wctomb_j (summary : option (tab * Z)) (wc : Z) (r : wlog) : res (Z * wlog) :=
  if (negb (isnull summary)) then
   sget summary 1 (fun used =>
   let i := (Z.land wc 0xf) in
   if (negb ((Z.land used (Z.shiftl 1 i)) =? 0)) then
    let used := (Z.land used ((Z.shiftl 1 i) - 1)) in
    let used := ((Z.land used 0x5555) + (Z.shiftr (Z.land used 0xaaaa) 1)) in
    let used := ((Z.land used 0x3333) + (Z.shiftr (Z.land used 0xcccc) 2)) in
    let used := ((Z.land used 0xf0f) + (Z.shiftr (Z.land used 0xf0f0) 4)) in
    let used := ((Z.land used 0xff) + (Z.shiftr used 8)) in
    sget summary 0 (fun x2 =>
    tget jisx0208_2charset (x2 + used) (fun c =>
    let r := wr r 0%nat (Z.shiftr c 8) in
    let r := wr r 1%nat (Z.land c 0xff) in
    Ok (2, r)))
   else
    Ok ((-1), r))
  else
   Ok ((-1), r).
(* lib/converters/jisx0208.h:2381-2423 jisx0208_wctomb *)
Definition jisx0208_wctomb (wc : Z) (n : nat) : res (Z * wlog) :=
  let r := ([] : wlog) in
  if (Nat.leb 2%nat n) then
   let summary := (None : option (tab * Z)) in
   if ((wc >=? 0) &&& (wc <? 0x100)) then
    let summary := Some (jisx0208_uni2indx_page00, (Z.shiftr wc 4)) in
    jisx0208_wctomb_j summary wc r
   else
    if ((wc >=? 0x300) &&& (wc <? 0x460)) then
     let summary := Some (jisx0208_uni2indx_page03, ((Z.shiftr wc 4) - 0x30)) in
     jisx0208_wctomb_j summary wc r
    else
     if ((wc >=? 0x2000) &&& (wc <? 0x2320)) then
      let summary := Some (jisx0208_uni2indx_page20, ((Z.shiftr wc 4) - 0x200)) in
      jisx0208_wctomb_j summary wc r
     else
      if ((wc >=? 0x2500) &&& (wc <? 0x2670)) then
       let summary := Some (jisx0208_uni2indx_page25, ((Z.shiftr wc 4) - 0x250)) in
       jisx0208_wctomb_j summary wc r
      else
       if ((wc >=? 0x3000) &&& (wc <? 0x3100)) then
        let summary := Some (jisx0208_uni2indx_page30, ((Z.shiftr wc 4) - 0x300)) in
        jisx0208_wctomb_j summary wc r
       else
        if ((wc >=? 0x4e00) &&& (wc <? 0x9fb0)) then
         let summary := Some (jisx0208_uni2indx_page4e, ((Z.shiftr wc 4) - 0x4e0)) in
         jisx0208_wctomb_j summary wc r
        else
         if ((wc >=? 0xff00) &&& (wc <? 0xfff0)) then
          let summary := Some (jisx0208_uni2indx_pageff, ((Z.shiftr wc 4) - 0xff0)) in
          jisx0208_wctomb_j summary wc r
         else
          jisx0208_wctomb_j summary wc r
  else
   Ok ((-2), r).

(* lib/converters/jisx0212.h:918-961 jisx0212_mbtowc *)
Definition jisx0212_mbtowc_j (wc : Z) (pwc : option Z) : res (Z * option Z) :=
  if (negb (wc =? 0xfffd)) then
   let pwc := Some wc in
   Ok (2, pwc)
  else
   Ok ((-1), pwc).
(* lib/converters/jisx0212.h:918-961 jisx0212_mbtowc *)
Definition jisx0212_mbtowc (s : list Z) (n : nat) : res (Z * option Z) :=
  let pwc := (None : option Z) in
  rd s 0%nat (fun c1 =>
  if ((((c1 =? 0x22) ||| ((c1 >=? 0x26) &&& (c1 <=? 0x27))) ||| ((c1 >=? 0x29) &&& (c1 <=? 0x2b))) ||| ((c1 >=? 0x30) &&& (c1 <=? 0x6d))) then
   if (Nat.leb 2%nat n) then
    rd s 1%nat (fun c2 =>
    if ((c2 >=? 0x21) &&& (c2 <? 0x7f)) then
     let i := ((0x5e * (c1 - 0x21)) + (c2 - 0x21)) in
     let wc := 0xfffd in
     if (i <? 0x1d6) then
      if (i <? 0xaf) then
       tget jisx0212_2uni_page22 (i - 0x5e) (fun wc =>
       jisx0212_mbtowc_j wc pwc)
      else
       jisx0212_mbtowc_j wc pwc
     else
      if (i <? 0x2f0) then
       if (i <? 0x292) then
        tget jisx0212_2uni_page26 (i - 0x1d6) (fun wc =>
        jisx0212_mbtowc_j wc pwc)
       else
        jisx0212_mbtowc_j wc pwc
      else
       if (i <? 0x582) then
        if (i <? 0x403) then
         tget jisx0212_2uni_page29 (i - 0x2f0) (fun wc =>
         jisx0212_mbtowc_j wc pwc)
        else
         jisx0212_mbtowc_j wc pwc
       else
        if (i <? 0x1c2b) then
         tget jisx0212_2uni_page30 (i - 0x582) (fun wc =>
         jisx0212_mbtowc_j wc pwc)
        else
         jisx0212_mbtowc_j wc pwc
    else
     Ok ((-1), pwc))
   else
    Ok ((-2), pwc)
  else
   Ok ((-1), pwc)).

(* lib/converters/jisx0212.h:2171-2207 jisx0212_wctomb *)
Definition jisx0212_wctomb_j (summary : option (tab * Z)) (wc : Z) (r : wlog) : res (Z * wlog) :=
  if (negb (isnull summary)) then
   sget summary 1 (fun used =>
   let i := (Z.land wc 0xf) in
   if (negb ((Z.land used (Z.shiftl 1 i)) =? 0)) then
    let used := (Z.land used ((Z.shiftl 1 i) - 1)) in
    let used := ((Z.land used 0x5555) + (Z.shiftr (Z.land used 0xaaaa) 1)) in
    let used := ((Z.land used 0x3333) + (Z.shiftr (Z.land used 0xcccc) 2)) in
    let used := ((Z.land used 0xf0f) + (Z.shiftr (Z.land used 0xf0f0) 4)) in
    let used := ((Z.land used 0xff) + (Z.shiftr used 8)) in
    sget summary 0 (fun x2 =>
    tget jisx0212_2charset (x2 + used) (fun c =>
    let r := wr r 0%nat (Z.shiftr c 8) in
    let r := wr r 1%nat (Z.land c 0xff) in
    Ok (2, r)))
   else
    Ok ((-1), r))
  else
   Ok ((-1), r).
(* lib/converters/jisx0212.h:2171-2207 jisx0212_wctomb *)
Definition jisx0212_wctomb (wc : Z) (n : nat) : res (Z * wlog) :=
  let r := ([] : wlog) in
  if (Nat.leb 2%nat n) then
   let summary := (None : option (tab * Z)) in
   if ((wc >=? 0) &&& (wc <? 0x460)) then
    let summary := Some (jisx0212_uni2indx_page00, (Z.shiftr wc 4)) in
    jisx0212_wctomb_j summary wc r
   else
    if ((wc >=? 0x2100) &&& (wc <? 0x2130)) then
     let summary := Some (jisx0212_uni2indx_page21, ((Z.shiftr wc 4) - 0x210)) in
     jisx0212_wctomb_j summary wc r
    else
     if ((wc >=? 0x4e00) &&& (wc <? 0x9fb0)) then
      let summary := Some (jisx0212_uni2indx_page4e, ((Z.shiftr wc 4) - 0x4e0)) in
      jisx0212_wctomb_j summary wc r
     else
      if ((wc >=? 0xff00) &&& (wc <? 0xff60)) then
       let summary := Some (jisx0212_uni2indx_pageff, ((Z.shiftr wc 4) - 0xff0)) in
       jisx0212_wctomb_j summary wc r
      else
       jisx0212_wctomb_j summary wc r
  else
   Ok ((-2), r).

(* lib/converters/cp932ext.h:153-191 cp932ext_mbtowc *)
Definition cp932ext_mbtowc_j (wc : Z) (pwc : option Z) : res (Z * option Z) :=
  if (negb (wc =? 0xfffd)) then
   let pwc := Some wc in
   Ok (2, pwc)
  else
   Ok ((-1), pwc).
(* lib/converters/cp932ext.h:153-191 cp932ext_mbtowc *)
Definition cp932ext_mbtowc (s : list Z) (n : nat) : res (Z * option Z) :=
  let pwc := (None : option Z) in
  rd s 0%nat (fun c1 =>
  if (((c1 =? 0x87) ||| ((c1 >=? 0xed) &&& (c1 <=? 0xee))) ||| ((c1 >=? 0xfa) &&& (c1 <=? 0xfc))) then
   if (Nat.leb 2%nat n) then
    rd s 1%nat (fun c2 =>
    if (((c2 >=? 0x40) &&& (c2 <? 0x7f)) ||| ((c2 >=? 0x80) &&& (c2 <? 0xfd))) then
     let i := (u32 ((0xbc * (c1 - (if (c1 >=? 0xe0) then 0xc1 else 0x81))) + (c2 - (if (c2 >=? 0x80) then 0x41 else 0x40)))) in
     let wc := 0xfffd in
     if (i <? 0x2050) then
      if (i <? 0x4c4) then
       tget cp932ext_2uni_page87 (u32 (i - 0x468)) (fun wc =>
       cp932ext_mbtowc_j wc pwc)
      else
       cp932ext_mbtowc_j wc pwc
     else
      if (i <? 0x29dc) then
       if (i <? 0x21c8) then
        tget cp932ext_2uni_pageed (i - 0x2050) (fun wc =>
        cp932ext_mbtowc_j wc pwc)
       else
        cp932ext_mbtowc_j wc pwc
      else
       if (i <? 0x2b60) then
        tget cp932ext_2uni_pagefa (i - 0x29dc) (fun wc =>
        cp932ext_mbtowc_j wc pwc)
       else
        cp932ext_mbtowc_j wc pwc
    else
     Ok ((-1), pwc))
   else
    Ok ((-2), pwc)
  else
   Ok ((-1), pwc)).

(* lib/converters/cp932ext.h:669-725 cp932ext_wctomb *)
Definition cp932ext_wctomb_j (summary : option (tab * Z)) (wc : Z) (r : wlog) : res (Z * wlog) :=
  if (negb (isnull summary)) then
   sget summary 1 (fun used =>
   let i := (Z.land wc 0xf) in
   if (negb ((Z.land used (Z.shiftl 1 i)) =? 0)) then
    let used := (Z.land used ((Z.shiftl 1 i) - 1)) in
    let used := ((Z.land used 0x5555) + (Z.shiftr (Z.land used 0xaaaa) 1)) in
    let used := ((Z.land used 0x3333) + (Z.shiftr (Z.land used 0xcccc) 2)) in
    let used := ((Z.land used 0xf0f) + (Z.shiftr (Z.land used 0xf0f0) 4)) in
    let used := ((Z.land used 0xff) + (Z.shiftr used 8)) in
    sget summary 0 (fun x2 =>
    tget cp932ext_2charset (x2 + used) (fun c =>
    let r := wr r 0%nat (Z.shiftr c 8) in
    let r := wr r 1%nat (Z.land c 0xff) in
    Ok (2, r)))
   else
    Ok ((-1), r))
  else
   Ok ((-1), r).
(* lib/converters/cp932ext.h:669-725 cp932ext_wctomb *)
Definition cp932ext_wctomb (wc : Z) (n : nat) : res (Z * wlog) :=
  let r := ([] : wlog) in
  if (Nat.leb 2%nat n) then
   let summary := (None : option (tab * Z)) in
   if ((wc >=? 0x2100) &&& (wc <? 0x22c0)) then
    let summary := Some (cp932ext_uni2indx_page21, ((Z.shiftr wc 4) - 0x210)) in
    cp932ext_wctomb_j summary wc r
   else
    if ((wc >=? 0x2400) &&& (wc <? 0x2480)) then
     let summary := Some (cp932ext_uni2indx_page24, ((Z.shiftr wc 4) - 0x240)) in
     cp932ext_wctomb_j summary wc r
    else
     if ((wc >=? 0x3000) &&& (wc <? 0x3020)) then
      let summary := Some (cp932ext_uni2indx_page30, ((Z.shiftr wc 4) - 0x300)) in
      cp932ext_wctomb_j summary wc r
     else
      if ((wc >=? 0x3200) &&& (wc <? 0x33d0)) then
       let summary := Some (cp932ext_uni2indx_page32, ((Z.shiftr wc 4) - 0x320)) in
       cp932ext_wctomb_j summary wc r
      else
       if ((wc >=? 0x4e00) &&& (wc <? 0x5590)) then
        let summary := Some (cp932ext_uni2indx_page4e, ((Z.shiftr wc 4) - 0x4e0)) in
        cp932ext_wctomb_j summary wc r
       else
        if ((wc >=? 0x5700) &&& (wc <? 0x59c0)) then
         let summary := Some (cp932ext_uni2indx_page57, ((Z.shiftr wc 4) - 0x570)) in
         cp932ext_wctomb_j summary wc r
        else
         if ((wc >=? 0x5b00) &&& (wc <? 0x5de0)) then
          let summary := Some (cp932ext_uni2indx_page5b, ((Z.shiftr wc 4) - 0x5b0)) in
          cp932ext_wctomb_j summary wc r
         else
          if ((wc >=? 0x5f00) &&& (wc <? 0x7ba0)) then
           let summary := Some (cp932ext_uni2indx_page5f, ((Z.shiftr wc 4) - 0x5f0)) in
           cp932ext_wctomb_j summary wc r
          else
           if ((wc >=? 0x7d00) &&& (wc <? 0x7fb0)) then
            let summary := Some (cp932ext_uni2indx_page7d, ((Z.shiftr wc 4) - 0x7d0)) in
            cp932ext_wctomb_j summary wc r
           else
            if ((wc >=? 0x8300) &&& (wc <? 0x85c0)) then
             let summary := Some (cp932ext_uni2indx_page83, ((Z.shiftr wc 4) - 0x830)) in
             cp932ext_wctomb_j summary wc r
            else
             if ((wc >=? 0x8800) &&& (wc <? 0x8ed0)) then
              let summary := Some (cp932ext_uni2indx_page88, ((Z.shiftr wc 4) - 0x880)) in
              cp932ext_wctomb_j summary wc r
             else
              if ((wc >=? 0x9000) &&& (wc <? 0x9ee0)) then
               let summary := Some (cp932ext_uni2indx_page90, ((Z.shiftr wc 4) - 0x900)) in
               cp932ext_wctomb_j summary wc r
              else
               if ((wc >=? 0xf900) &&& (wc <? 0xfa30)) then
                let summary := Some (cp932ext_uni2indx_pagef9, ((Z.shiftr wc 4) - 0xf90)) in
                cp932ext_wctomb_j summary wc r
               else
                if ((wc >=? 0xff00) &&& (wc <? 0xfff0)) then
                 let summary := Some (cp932ext_uni2indx_pageff, ((Z.shiftr wc 4) - 0xff0)) in
                 cp932ext_wctomb_j summary wc r
                else
                 cp932ext_wctomb_j summary wc r
  else
   Ok ((-2), r).

(* lib/converters/cp50221_0208_ext.h:51-64 cp50221_0208_ext_mbtowc *)
Definition cp50221_0208_ext_mbtowc (s : list Z) (n : nat) : res (Z * option Z) :=
  let pwc := (None : option Z) in
  rd s 0%nat (fun c =>
  if (c <? 0x60) then
   tget cp50221_0208_ext_2uni c (fun wc =>
   if (negb (wc =? 0xfffd)) then
    let pwc := Some wc in
    Ok (1, pwc)
   else
    Ok ((-1), pwc))
  else
   Ok ((-1), pwc)).

(* lib/converters/cp50221_0208_ext.h:131-156 cp50221_0208_ext_wctomb *)
Definition cp50221_0208_ext_wctomb_j (c : Z) (r : wlog) : res (Z * wlog) :=
  if (negb (c =? 0)) then
   let r := wr r 0%nat c in
   Ok (1, r)
  else
   Ok ((-1), r).
(* lib/converters/cp50221_0208_ext.h:131-156 cp50221_0208_ext_wctomb *)
Definition cp50221_0208_ext_wctomb (wc : Z) (n : nat) : res (Z * wlog) :=
  let r := ([] : wlog) in
  let c := 0 in
  if ((wc >=? 0x2110) &&& (wc <? 0x2170)) then
   tget cp50221_0208_ext_page21 (wc - 0x2110) (fun c =>
   cp50221_0208_ext_wctomb_j c r)
  else
   if ((wc >=? 0x2210) &&& (wc <? 0x2230)) then
    tget cp50221_0208_ext_page22 (wc - 0x2210) (fun c =>
    cp50221_0208_ext_wctomb_j c r)
   else
    if (wc =? 0x22bf) then
     let c := 0x59 in
     cp50221_0208_ext_wctomb_j c r
    else
     if ((wc >=? 0x2460) &&& (wc <? 0x2478)) then
      tget cp50221_0208_ext_page24 (wc - 0x2460) (fun c =>
      cp50221_0208_ext_wctomb_j c r)
     else
      if ((wc >=? 0x3018) &&& (wc <? 0x3020)) then
       tget cp50221_0208_ext_page30 (wc - 0x3018) (fun c =>
       cp50221_0208_ext_wctomb_j c r)
      else
       if ((wc >=? 0x3230) &&& (wc <? 0x3240)) then
        tget cp50221_0208_ext_page32 (wc - 0x3230) (fun c =>
        cp50221_0208_ext_wctomb_j c r)
       else
        if ((wc >=? 0x32a0) &&& (wc <? 0x32b0)) then
         tget cp50221_0208_ext_page32_1 (wc - 0x32a0) (fun c =>
         cp50221_0208_ext_wctomb_j c r)
        else
         if ((wc >=? 0x3300) &&& (wc <? 0x33d0)) then
          tget cp50221_0208_ext_page33 (wc - 0x3300) (fun c =>
          cp50221_0208_ext_wctomb_j c r)
         else
          cp50221_0208_ext_wctomb_j c r.

(* lib/converters/cp50221_0212_ext.h:54-72 cp50221_0212_ext_mbtowc *)
Definition cp50221_0212_ext_mbtowc (s : list Z) (n : nat) : res (Z * option Z) :=
  let pwc := (None : option Z) in
  rd s 0%nat (fun c =>
  if (c <? 0x70) then
   tget cp50221_0212_ext_2uni c (fun wc =>
   if (negb (wc =? 0xfffd)) then
    let pwc := Some wc in
    Ok (1, pwc)
   else
    Ok ((-1), pwc))
  else
   if (c =? 0xa1) then
    let pwc := Some 0x974d in
    Ok (1, pwc)
   else
    Ok ((-1), pwc)).

(* lib/converters/cp50221_0212_ext.h:121-220 cp50221_0212_ext_wctomb *)
Definition cp50221_0212_ext_wctomb_j (c : Z) (r : wlog) : res (Z * wlog) :=
  if (negb (c =? 0)) then
   let r := wr r 0%nat c in
   Ok (1, r)
  else
   Ok ((-1), r).
(* lib/converters/cp50221_0212_ext.h:121-220 cp50221_0212_ext_wctomb *)
Definition cp50221_0212_ext_wctomb (wc : Z) (n : nat) : res (Z * wlog) :=
  let r := ([] : wlog) in
  let c := 0 in
  if ((wc >=? 0x2170) &&& (wc <? 0x2180)) then
   tget cp50221_0212_ext_page21 (wc - 0x2170) (fun c =>
   cp50221_0212_ext_wctomb_j c r)
  else
   if (wc =? 0x4efc) then
    let c := 0x1b in
    cp50221_0212_ext_wctomb_j c r
   else
    if (wc =? 0x50f4) then
     let c := 0x1c in
     cp50221_0212_ext_wctomb_j c r
    else
     if (wc =? 0x51ec) then
      let c := 0x1d in
      cp50221_0212_ext_wctomb_j c r
     else
      if ((wc >=? 0x5300) &&& (wc <? 0x5328)) then
       tget cp50221_0212_ext_page53 (wc - 0x5300) (fun c =>
       cp50221_0212_ext_wctomb_j c r)
      else
       if (wc =? 0x548a) then
        let c := 0x21 in
        cp50221_0212_ext_wctomb_j c r
       else
        if (wc =? 0x5759) then
         let c := 0x22 in
         cp50221_0212_ext_wctomb_j c r
        else
         if (wc =? 0x589e) then
          let c := 0x25 in
          cp50221_0212_ext_wctomb_j c r
         else
          if (wc =? 0x5bec) then
           let c := 0x26 in
           cp50221_0212_ext_wctomb_j c r
          else
           if (wc =? 0x5cf5) then
            let c := 0x27 in
            cp50221_0212_ext_wctomb_j c r
           else
            if (wc =? 0x5d53) then
             let c := 0x28 in
             cp50221_0212_ext_wctomb_j c r
            else
             if (wc =? 0x5fb7) then
              let c := 0x2a in
              cp50221_0212_ext_wctomb_j c r
             else
              if (wc =? 0x6085) then
               let c := 0x2b in
               cp50221_0212_ext_wctomb_j c r
              else
               if (wc =? 0x6120) then
                let c := 0x2c in
                cp50221_0212_ext_wctomb_j c r
               else
                if (wc =? 0x654e) then
                 let c := 0x2d in
                 cp50221_0212_ext_wctomb_j c r
                else
                 if (wc =? 0x6665) then
                  let c := 0x2f in
                  cp50221_0212_ext_wctomb_j c r
                 else
                  if (wc =? 0x6801) then
                   let c := 0x32 in
                   cp50221_0212_ext_wctomb_j c r
                  else
                   if (wc =? 0x6a6b) then
                    let c := 0x35 in
                    cp50221_0212_ext_wctomb_j c r
                   else
                    if (wc =? 0x6ae2) then
                     let c := 0x36 in
                     cp50221_0212_ext_wctomb_j c r
                    else
                     if ((wc >=? 0x6df0) &&& (wc <? 0x6e00)) then
                      tget cp50221_0212_ext_page6d (wc - 0x6df0) (fun c =>
                      cp50221_0212_ext_wctomb_j c r)
                     else
                      if (wc =? 0x7028) then
                       let c := 0x39 in
                       cp50221_0212_ext_wctomb_j c r
                      else
                       if (wc =? 0x70bb) then
                        let c := 0x1a in
                        cp50221_0212_ext_wctomb_j c r
                       else
                        if (wc =? 0x7501) then
                         let c := 0x3c in
                         cp50221_0212_ext_wctomb_j c r
                        else
                         if ((wc >=? 0x7680) &&& (wc <? 0x76a0)) then
                          tget cp50221_0212_ext_page76 (wc - 0x7680) (fun c =>
                          cp50221_0212_ext_wctomb_j c r)
                         else
                          if (wc =? 0x7930) then
                           let c := 0x40 in
                           cp50221_0212_ext_wctomb_j c r
                          else
                           if (wc =? 0x7ae7) then
                            let c := 0x45 in
                            cp50221_0212_ext_wctomb_j c r
                           else
                            if ((wc >=? 0x7da0) &&& (wc <? 0x7dd8)) then
                             tget cp50221_0212_ext_page7d (wc - 0x7da0) (fun c =>
                             cp50221_0212_ext_wctomb_j c r)
                            else
                             if (wc =? 0x8362) then
                              let c := 0x4b in
                              cp50221_0212_ext_wctomb_j c r
                             else
                              if (wc =? 0x85b0) then
                               let c := 0x4d in
                               cp50221_0212_ext_wctomb_j c r
                              else
                               if (wc =? 0x8807) then
                                let c := 0x50 in
                                cp50221_0212_ext_wctomb_j c r
                               else
                                if (wc =? 0x8b7f) then
                                 let c := 0x52 in
                                 cp50221_0212_ext_wctomb_j c r
                                else
                                 if (wc =? 0x8cf4) then
                                  let c := 0x53 in
                                  cp50221_0212_ext_wctomb_j c r
                                 else
                                  if (wc =? 0x8d76) then
                                   let c := 0x54 in
                                   cp50221_0212_ext_wctomb_j c r
                                  else
                                   if (wc =? 0x90de) then
                                    let c := 0x58 in
                                    cp50221_0212_ext_wctomb_j c r
                                   else
                                    if (wc =? 0x9115) then
                                     let c := 0x5a in
                                     cp50221_0212_ext_wctomb_j c r
                                    else
                                     if (wc =? 0x9592) then
                                      let c := 0x5d in
                                      cp50221_0212_ext_wctomb_j c r
                                     else
                                      if ((wc >=? 0x9738) &&& (wc <? 0x9758)) then
                                       tget cp50221_0212_ext_page97 (wc - 0x9738) (fun c =>
                                       cp50221_0212_ext_wctomb_j c r)
                                      else
                                       if (wc =? 0x999e) then
                                        let c := 0x66 in
                                        cp50221_0212_ext_wctomb_j c r
                                       else
                                        if (wc =? 0x9ad9) then
                                         let c := 0x67 in
                                         cp50221_0212_ext_wctomb_j c r
                                        else
                                         if (wc =? 0x9b72) then
                                          let c := 0x68 in
                                          cp50221_0212_ext_wctomb_j c r
                                         else
                                          if (wc =? 0x9ed1) then
                                           let c := 0x6a in
                                           cp50221_0212_ext_wctomb_j c r
                                          else
                                           if (wc =? 0xf929) then
                                            let c := 0x31 in
                                            cp50221_0212_ext_wctomb_j c r
                                           else
                                            if (wc =? 0xf9dc) then
                                             let c := 0x5e in
                                             cp50221_0212_ext_wctomb_j c r
                                            else
                                             if ((wc >=? 0xfa08) &&& (wc <? 0xfa30)) then
                                              tget cp50221_0212_ext_pagefa (wc - 0xfa08) (fun c =>
                                              cp50221_0212_ext_wctomb_j c r)
                                             else
                                              if ((wc >=? 0xff00) &&& (wc <? 0xff08)) then
                                               tget cp50221_0212_ext_pageff (wc - 0xff00) (fun c =>
                                               cp50221_0212_ext_wctomb_j c r)
                                              else
                                               cp50221_0212_ext_wctomb_j c r.

(* lib/converters/jisx0213.h:5865-5895 jisx0213_to_ucs4 *)
Definition jisx0213_to_ucs4_j (col : Z) (row : Z) : res (Z) :=
  if ((col >=? 0x21) &&& (col <=? 0x7e)) then
   let col := (col - 0x21) in
   tget jisx0213_to_ucs_main ((row * 0x5e) + col) (fun x1 =>
   let val := x1 in
   tget jisx0213_to_ucs_pagestart (Z.shiftr val 8) (fun x2 =>
   let val := (x2 + (Z.land val 0xff)) in
   if (val =? 0xfffd) then
    let val := 0 in
    Ok val
   else
    Ok val))
  else
   Ok 0.
(* lib/converters/jisx0213.h:5865-5895 jisx0213_to_ucs4 *)
Definition jisx0213_to_ucs4 (row : Z) (col : Z) : res (Z) :=
  if ((row >=? 0x121) &&& (row <=? 0x17e)) then
   let row := (row - 0x121) in
   jisx0213_to_ucs4_j col row
  else
   if (row =? 0x221) then
    let row := (row - 0x1c3) in
    jisx0213_to_ucs4_j col row
   else
    if ((row >=? 0x223) &&& (row <=? 0x225)) then
     let row := (row - 0x1c4) in
     jisx0213_to_ucs4_j col row
    else
     if (row =? 0x228) then
      let row := (row - 0x1c6) in
      jisx0213_to_ucs4_j col row
     else
      if ((row >=? 0x22c) &&& (row <=? 0x22f)) then
       let row := (row - 0x1c9) in
       jisx0213_to_ucs4_j col row
      else
       if ((row >=? 0x26e) &&& (row <=? 0x27e)) then
        let row := (row - 0x207) in
        jisx0213_to_ucs4_j col row
       else
        Ok 0.

(* lib/converters/jisx0213.h:5904-5929 ucs4_to_jisx0213 *)
Definition ucs4_to_jisx0213 (ucs : Z) : res (Z) :=
  if (ucs <? (Z.shiftl 0xa9b 6)) then
   tget jisx0213_from_ucs_level1 (Z.shiftr ucs 6) (fun x1 =>
   let index1 := x1 in
   if (index1 >=? 0) then
    let summary := Some (jisx0213_from_ucs_level2_2indx, (Z.shiftr ((Z.shiftl index1 6) + (Z.land ucs 0x3f)) 4)) in
    sget summary 1 (fun used =>
    let i := (Z.land ucs 0xf) in
    if (negb ((Z.land used (Z.shiftl 1 i)) =? 0)) then
     let used := (Z.land used ((Z.shiftl 1 i) - 1)) in
     let used := ((Z.land used 0x5555) + (Z.shiftr (Z.land used 0xaaaa) 1)) in
     let used := ((Z.land used 0x3333) + (Z.shiftr (Z.land used 0xcccc) 2)) in
     let used := ((Z.land used 0xf0f) + (Z.shiftr (Z.land used 0xf0f0) 4)) in
     let used := ((Z.land used 0xff) + (Z.shiftr used 8)) in
     sget summary 0 (fun x3 =>
     tget jisx0213_from_ucs_level2_data (x3 + used) (fun x4 =>
     Ok x4))
    else
     Ok 0)
   else
    Ok 0)
  else
   Ok 0.

