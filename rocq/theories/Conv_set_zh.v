(** GENERATED by tools/gen.py from /repo/lib/converters; do not edit.
    Converter functions, one definition per basic block that is reached from several places. *)
From Coq Require Import ZArith List Bool.
From Verif Require Import Base Tab_gb Tab_big5 Tab_cns Tab_cnsinv Conv_uni.
Import ListNotations.
Open Scope Z_scope.

(* lib/converters/gb2312.h:1086-1119 gb2312_mbtowc *)
Definition gb2312_mbtowc_j (wc : Z) (pwc : option Z) : res (Z * option Z) :=
  if (negb (wc =? 0xfffd)) then
   let pwc := Some wc in
   Ok (2, pwc)
  else
   Ok ((-1), pwc).
(* lib/converters/gb2312.h:1086-1119 gb2312_mbtowc *)
Definition gb2312_mbtowc (s : list Z) (n : nat) : res (Z * option Z) :=
  let pwc := (None : option Z) in
  rd s 0%nat (fun c1 =>
  if (((c1 >=? 0x21) &&& (c1 <=? 0x29)) ||| ((c1 >=? 0x30) &&& (c1 <=? 0x77))) then
   if (Nat.leb 2%nat n) then
    rd s 1%nat (fun c2 =>
    if ((c2 >=? 0x21) &&& (c2 <? 0x7f)) then
     let i := ((0x5e * (c1 - 0x21)) + (c2 - 0x21)) in
     let wc := 0xfffd in
     if (i <? 0x582) then
      if (i <? 0x33f) then
       tget gb2312_2uni_page21 i (fun wc =>
       gb2312_mbtowc_j wc pwc)
      else
       gb2312_mbtowc_j wc pwc
     else
      if (i <? 0x1ff2) then
       tget gb2312_2uni_page30 (i - 0x582) (fun wc =>
       gb2312_mbtowc_j wc pwc)
      else
       gb2312_mbtowc_j wc pwc
    else
     Ok ((-1), pwc))
   else
    Ok ((-2), pwc)
  else
   Ok ((-1), pwc)).

(* lib/converters/gb2312.h:2545-2585 gb2312_wctomb *)
Definition gb2312_wctomb_j (summary : option (tab * Z)) (wc : Z) (r : wlog) : res (Z * wlog) :=
  if (negb (isnull summary)) then
   sget summary 1 (fun used =>
   let i := (Z.land wc 0xf) in
   if (negb ((Z.land used (Z.shiftl 1 i)) =? 0)) then
    let used := (Z.land used ((Z.shiftl 1 i) - 1)) in
    let used := ((Z.land used 0x5555) + (Z.shiftr (Z.land used 0xaaaa) 1)) in
    let used := ((Z.land used 0x3333) + (Z.shiftr (Z.land used 0xcccc) 2)) in
    let used := ((Z.land used 0xf0f) + (Z.shiftr (Z.land used 0xf0f0) 4)) in
    let used := ((Z.land used 0xff) + (Z.shiftr used 8)) in
    sget summary 0 (fun x2 =>
    tget gb2312_2charset (x2 + used) (fun c =>
    let r := wr r 0%nat (Z.shiftr c 8) in
    let r := wr r 1%nat (Z.land c 0xff) in
    Ok (2, r)))
   else
    Ok ((-1), r))
  else
   Ok ((-1), r).
(* lib/converters/gb2312.h:2545-2585 gb2312_wctomb *)
Definition gb2312_wctomb (wc : Z) (n : nat) : res (Z * wlog) :=
  let r := ([] : wlog) in
  if (Nat.leb 2%nat n) then
   let summary := (None : option (tab * Z)) in
   if ((wc >=? 0) &&& (wc <? 0x460)) then
    let summary := Some (gb2312_uni2indx_page00, (Z.shiftr wc 4)) in
    gb2312_wctomb_j summary wc r
   else
    if ((wc >=? 0x2000) &&& (wc <? 0x2650)) then
     let summary := Some (gb2312_uni2indx_page20, ((Z.shiftr wc 4) - 0x200)) in
     gb2312_wctomb_j summary wc r
    else
     if ((wc >=? 0x3000) &&& (wc <? 0x3230)) then
      let summary := Some (gb2312_uni2indx_page30, ((Z.shiftr wc 4) - 0x300)) in
      gb2312_wctomb_j summary wc r
     else
      if ((wc >=? 0x4e00) &&& (wc <? 0x9cf0)) then
       let summary := Some (gb2312_uni2indx_page4e, ((Z.shiftr wc 4) - 0x4e0)) in
       gb2312_wctomb_j summary wc r
      else
       if ((wc >=? 0x9e00) &&& (wc <? 0x9fb0)) then
        let summary := Some (gb2312_uni2indx_page9e, ((Z.shiftr wc 4) - 0x9e0)) in
        gb2312_wctomb_j summary wc r
       else
        if ((wc >=? 0xff00) &&& (wc <? 0xfff0)) then
         let summary := Some (gb2312_uni2indx_pageff, ((Z.shiftr wc 4) - 0xff0)) in
         gb2312_wctomb_j summary wc r
        else
         gb2312_wctomb_j summary wc r
  else
   Ok ((-2), r).

(* lib/converters/iso646_cn.h:34-48 iso646_cn_mbtowc *)
Definition iso646_cn_mbtowc (s : list Z) (n : nat) : res (Z * option Z) :=
  let pwc := (None : option Z) in
  rd s 0%nat (fun c =>
  if (c <? 0x80) then
   if (c =? 0x24) then
    let pwc := Some 0xa5 in
    Ok (1, pwc)
   else
    if (c =? 0x7e) then
     let pwc := Some 0x203e in
     Ok (1, pwc)
    else
     let pwc := Some c in
     Ok (1, pwc)
  else
   Ok ((-1), pwc)).

(* lib/converters/iso646_cn.h:50-68 iso646_cn_wctomb *)
Definition iso646_cn_wctomb (wc : Z) (n : nat) : res (Z * wlog) :=
  let r := ([] : wlog) in
  if ((wc <? 0x80) &&& (negb ((wc =? 0x24) ||| (wc =? 0x7e)))) then
   let r := wr r 0%nat wc in
   Ok (1, r)
  else
   if (wc =? 0xa5) then
    let r := wr r 0%nat 0x24 in
    Ok (1, r)
   else
    if (wc =? 0x203e) then
     let r := wr r 0%nat 0x7e in
     Ok (1, r)
    else
     Ok ((-1), r).

(* lib/converters/isoir165ext.h:165-198 isoir165ext_mbtowc *)
Definition isoir165ext_mbtowc_j (wc : Z) (pwc : option Z) : res (Z * option Z) :=
  if (negb (wc =? 0xfffd)) then
   let pwc := Some wc in
   Ok (2, pwc)
  else
   Ok ((-1), pwc).
(* lib/converters/isoir165ext.h:165-198 isoir165ext_mbtowc *)
Definition isoir165ext_mbtowc (s : list Z) (n : nat) : res (Z * option Z) :=
  let pwc := (None : option Z) in
  rd s 0%nat (fun c1 =>
  if (((c1 >=? 0x2b) &&& (c1 <=? 0x2f)) ||| ((c1 >=? 0x7a) &&& (c1 <=? 0x7e))) then
   if (Nat.leb 2%nat n) then
    rd s 1%nat (fun c2 =>
    if ((c2 >=? 0x21) &&& (c2 <? 0x7f)) then
     let i := ((0x5e * (c1 - 0x21)) + (c2 - 0x21)) in
     let wc := 0xfffd in
     if (i <? 0x20ae) then
      if (i <? 0x582) then
       tget isoir165ext_2uni_page2b (i - 0x3ac) (fun wc =>
       isoir165ext_mbtowc_j wc pwc)
      else
       isoir165ext_mbtowc_j wc pwc
     else
      if (i <? 0x2284) then
       tget isoir165ext_2uni_page7a (i - 0x20ae) (fun wc =>
       isoir165ext_mbtowc_j wc pwc)
      else
       isoir165ext_mbtowc_j wc pwc
    else
     Ok ((-1), pwc))
   else
    Ok ((-2), pwc)
  else
   Ok ((-1), pwc)).

(* lib/converters/isoir165ext.h:766-814 isoir165ext_wctomb *)
Definition isoir165ext_wctomb_j (summary : option (tab * Z)) (wc : Z) (r : wlog) : res (Z * wlog) :=
  if (negb (isnull summary)) then
   sget summary 1 (fun used =>
   let i := (Z.land wc 0xf) in
   if (negb ((Z.land used (Z.shiftl 1 i)) =? 0)) then
    let used := (Z.land used ((Z.shiftl 1 i) - 1)) in
    let used := ((Z.land used 0x5555) + (Z.shiftr (Z.land used 0xaaaa) 1)) in
    let used := ((Z.land used 0x3333) + (Z.shiftr (Z.land used 0xcccc) 2)) in
    let used := ((Z.land used 0xf0f) + (Z.shiftr (Z.land used 0xf0f0) 4)) in
    let used := ((Z.land used 0xff) + (Z.shiftr used 8)) in
    sget summary 0 (fun x2 =>
    tget isoir165ext_2charset (x2 + used) (fun c =>
    let r := wr r 0%nat (Z.shiftr c 8) in
    let r := wr r 1%nat (Z.land c 0xff) in
    Ok (2, r)))
   else
    Ok ((-1), r))
  else
   Ok ((-1), r).
(* lib/converters/isoir165ext.h:766-814 isoir165ext_wctomb *)
Definition isoir165ext_wctomb (wc : Z) (n : nat) : res (Z * wlog) :=
  let r := ([] : wlog) in
  if (Nat.leb 2%nat n) then
   let summary := (None : option (tab * Z)) in
   if ((wc >=? 0) &&& (wc <? 0x200)) then
    let summary := Some (isoir165ext_uni2indx_page00, (Z.shiftr wc 4)) in
    isoir165ext_wctomb_j summary wc r
   else
    if ((wc >=? 0x300) &&& (wc <? 0x3c0)) then
     let summary := Some (isoir165ext_uni2indx_page03, ((Z.shiftr wc 4) - 0x30)) in
     isoir165ext_wctomb_j summary wc r
    else
     if ((wc >=? 0x1e00) &&& (wc <? 0x1fc0)) then
      let summary := Some (isoir165ext_uni2indx_page1e, ((Z.shiftr wc 4) - 0x1e0)) in
      isoir165ext_wctomb_j summary wc r
     else
      if ((wc >=? 0x3000) &&& (wc <? 0x3040)) then
       let summary := Some (isoir165ext_uni2indx_page30, ((Z.shiftr wc 4) - 0x300)) in
       isoir165ext_wctomb_j summary wc r
      else
       if ((wc >=? 0x3200) &&& (wc <? 0x3400)) then
        let summary := Some (isoir165ext_uni2indx_page32, ((Z.shiftr wc 4) - 0x320)) in
        isoir165ext_wctomb_j summary wc r
       else
        if ((wc >=? 0x4e00) &&& (wc <? 0x7d00)) then
         let summary := Some (isoir165ext_uni2indx_page4e, ((Z.shiftr wc 4) - 0x4e0)) in
         isoir165ext_wctomb_j summary wc r
        else
         if ((wc >=? 0x7e00) &&& (wc <? 0x92d0)) then
          let summary := Some (isoir165ext_uni2indx_page7e, ((Z.shiftr wc 4) - 0x7e0)) in
          isoir165ext_wctomb_j summary wc r
         else
          if ((wc >=? 0x9400) &&& (wc <? 0x9cf0)) then
           let summary := Some (isoir165ext_uni2indx_page94, ((Z.shiftr wc 4) - 0x940)) in
           isoir165ext_wctomb_j summary wc r
          else
           if ((wc >=? 0x9e00) &&& (wc <? 0x9f90)) then
            let summary := Some (isoir165ext_uni2indx_page9e, ((Z.shiftr wc 4) - 0x9e0)) in
            isoir165ext_wctomb_j summary wc r
           else
            if ((wc >=? 0xff00) &&& (wc <? 0xff50)) then
             let summary := Some (isoir165ext_uni2indx_pageff, ((Z.shiftr wc 4) - 0xff0)) in
             isoir165ext_wctomb_j summary wc r
            else
             isoir165ext_wctomb_j summary wc r
  else
   Ok ((-2), r).

(* lib/converters/isoir165.h:92-137 isoir165_mbtowc *)
Definition isoir165_mbtowc_j (x1 : Z) (s : list Z) (n : nat) (pwc : option Z) : res (Z * option Z) :=
  bind (gb2312_mbtowc s n) (fun '(ret, o) =>
  let pwc := oset pwc o in
  if (negb (ret =? (-1))) then
   Ok (ret, pwc)
  else
   if (x1 =? 0x2a) then
    if (Nat.leb 2%nat n) then
     rd s 1%nat (fun c2 =>
     if ((c2 >=? 0x21) &&& (c2 <? 0x7f)) then
      bind (iso646_cn_mbtowc (skipn 1%nat s) 1%nat) (fun '(ret, o) =>
      let pwc := oset pwc o in
      if (negb (ret =? 1)) then
       Abort
      else
       Ok (2, pwc))
     else
      Ok ((-1), pwc))
    else
     Ok ((-2), pwc)
   else
    bind (isoir165ext_mbtowc s n) (fun '(ret, o) =>
    let pwc := oset pwc o in
    Ok (ret, pwc))).
(* lib/converters/isoir165.h:92-137 isoir165_mbtowc *)
Definition isoir165_mbtowc (s : list Z) (n : nat) : res (Z * option Z) :=
  let pwc := (None : option Z) in
  rd s 0%nat (fun x1 =>
  if (x1 =? 0x28) then
   if (Nat.leb 2%nat n) then
    rd s 1%nat (fun c2 =>
    if ((c2 >=? 0x21) &&& (c2 <=? 0x40)) then
     let buf := ([] : wlog) in
     wrb 2%nat buf 0%nat 0x2b (fun buf =>
     wrb 2%nat buf 1%nat c2 (fun buf =>
     bind (isoir165ext_mbtowc (lbuf buf 0%nat 2%nat) 2%nat) (fun '(ret, o) =>
     let pwc := oset pwc o in
     if (negb (ret =? (-1))) then
      Ok (ret, pwc)
     else
      isoir165_mbtowc_j x1 s n pwc)))
    else
     isoir165_mbtowc_j x1 s n pwc)
   else
    isoir165_mbtowc_j x1 s n pwc
  else
   isoir165_mbtowc_j x1 s n pwc).

(* lib/converters/isoir165.h:139-181 isoir165_wctomb *)
Definition isoir165_wctomb_j3 (wc : Z) (n : nat) (r : wlog) : res (Z * wlog) :=
  bind (isoir165ext_wctomb wc n) (fun '(ret, l) =>
  let r := lapp r 0%nat l in
  Ok (ret, r)).
(* lib/converters/isoir165.h:139-181 isoir165_wctomb *)
Definition isoir165_wctomb_j2 (buf : wlog) (wc : Z) (n : nat) (r : wlog) : res (Z * wlog) :=
  bind (iso646_cn_wctomb wc 1%nat) (fun '(ret, l) =>
  lappb 2%nat buf 0%nat l (fun buf =>
  if (negb (ret =? (-1))) then
   if (negb (ret =? 1)) then
    Abort
   else
    lrd buf 0%nat (fun x8 =>
    if (x8 >=? 0x21) then
     if (x8 <? 0x7f) then
      if (Nat.leb 2%nat n) then
       let r := wr r 0%nat 0x2a in
       let r := wr r 1%nat x8 in
       Ok (2, r)
      else
       Ok ((-2), r)
     else
      isoir165_wctomb_j3 wc n r
    else
     isoir165_wctomb_j3 wc n r)
  else
   isoir165_wctomb_j3 wc n r)).
(* lib/converters/isoir165.h:139-181 isoir165_wctomb *)
Definition isoir165_wctomb_j (buf : wlog) (x2 : Z) (n : nat) (r : wlog) : res (Z * wlog) :=
  if (Nat.leb 2%nat n) then
   let r := wr r 0%nat x2 in
   lrd buf 1%nat (fun x6 =>
   let r := wr r 1%nat x6 in
   Ok (2, r))
  else
   Ok ((-2), r).
(* lib/converters/isoir165.h:139-181 isoir165_wctomb *)
Definition isoir165_wctomb (wc : Z) (n : nat) : res (Z * wlog) :=
  let r := ([] : wlog) in
  let buf := ([] : wlog) in
  bind (gb2312_wctomb wc 2%nat) (fun '(ret, l) =>
  lappb 2%nat buf 0%nat l (fun buf =>
  if (negb (ret =? (-1))) then
   if (negb (ret =? 2)) then
    Abort
   else
    lrd buf 0%nat (fun x2 =>
    if (x2 =? 0x28) then
     lrd buf 1%nat (fun x3 =>
     if (x3 >=? 0x21) then
      if (x3 <=? 0x40) then
       isoir165_wctomb_j2 buf wc n r
      else
       isoir165_wctomb_j buf x2 n r
     else
      isoir165_wctomb_j buf x2 n r)
    else
     isoir165_wctomb_j buf x2 n r)
  else
   isoir165_wctomb_j2 buf wc n r)).

(* lib/converters/big5.h:1880-1913 big5_mbtowc *)
Definition big5_mbtowc_j (wc : Z) (pwc : option Z) : res (Z * option Z) :=
  if (negb (wc =? 0xfffd)) then
   let pwc := Some wc in
   Ok (2, pwc)
  else
   Ok ((-1), pwc).
(* lib/converters/big5.h:1880-1913 big5_mbtowc *)
Definition big5_mbtowc (s : list Z) (n : nat) : res (Z * option Z) :=
  let pwc := (None : option Z) in
  rd s 0%nat (fun c1 =>
  if (((c1 >=? 0xa1) &&& (c1 <=? 0xc7)) ||| ((c1 >=? 0xc9) &&& (c1 <=? 0xf9))) then
   if (Nat.leb 2%nat n) then
    rd s 1%nat (fun c2 =>
    if (((c2 >=? 0x40) &&& (c2 <? 0x7f)) ||| ((c2 >=? 0xa1) &&& (c2 <? 0xff))) then
     let i := (u32 ((0x9d * (c1 - 0xa1)) + (c2 - (if (c2 >=? 0xa1) then 0x62 else 0x40)))) in
     let wc := 0xfffd in
     if (i <? 0x1888) then
      if (i <? 0x17e9) then
       tget big5_2uni_pagea1 i (fun wc =>
       big5_mbtowc_j wc pwc)
      else
       big5_mbtowc_j wc pwc
     else
      if (i <? 0x366c) then
       tget big5_2uni_pagec9 (i - 0x1888) (fun wc =>
       big5_mbtowc_j wc pwc)
      else
       big5_mbtowc_j wc pwc
    else
     Ok ((-1), pwc))
   else
    Ok ((-2), pwc)
  else
   Ok ((-1), pwc)).

(* lib/converters/big5.h:4141-4185 big5_wctomb *)
Definition big5_wctomb_j (summary : option (tab * Z)) (wc : Z) (r : wlog) : res (Z * wlog) :=
  if (negb (isnull summary)) then
   sget summary 1 (fun used =>
   let i := (Z.land wc 0xf) in
   if (negb ((Z.land used (Z.shiftl 1 i)) =? 0)) then
    let used := (Z.land used ((Z.shiftl 1 i) - 1)) in
    let used := ((Z.land used 0x5555) + (Z.shiftr (Z.land used 0xaaaa) 1)) in
    let used := ((Z.land used 0x3333) + (Z.shiftr (Z.land used 0xcccc) 2)) in
    let used := ((Z.land used 0xf0f) + (Z.shiftr (Z.land used 0xf0f0) 4)) in
    let used := ((Z.land used 0xff) + (Z.shiftr used 8)) in
    sget summary 0 (fun x2 =>
    tget big5_2charset (x2 + used) (fun c =>
    let r := wr r 0%nat (Z.shiftr c 8) in
    let r := wr r 1%nat (Z.land c 0xff) in
    Ok (2, r)))
   else
    Ok ((-1), r))
  else
   Ok ((-1), r).
(* lib/converters/big5.h:4141-4185 big5_wctomb *)
Definition big5_wctomb (wc : Z) (n : nat) : res (Z * wlog) :=
  let r := ([] : wlog) in
  if (Nat.leb 2%nat n) then
   let summary := (None : option (tab * Z)) in
   if ((wc >=? 0) &&& (wc <? 0x100)) then
    let summary := Some (big5_uni2indx_page00, (Z.shiftr wc 4)) in
    big5_wctomb_j summary wc r
   else
    if ((wc >=? 0x200) &&& (wc <? 0x460)) then
     let summary := Some (big5_uni2indx_page02, ((Z.shiftr wc 4) - 0x20)) in
     big5_wctomb_j summary wc r
    else
     if ((wc >=? 0x2000) &&& (wc <? 0x22c0)) then
      let summary := Some (big5_uni2indx_page20, ((Z.shiftr wc 4) - 0x200)) in
      big5_wctomb_j summary wc r
     else
      if ((wc >=? 0x2400) &&& (wc <? 0x2650)) then
       let summary := Some (big5_uni2indx_page24, ((Z.shiftr wc 4) - 0x240)) in
       big5_wctomb_j summary wc r
      else
       if ((wc >=? 0x3000) &&& (wc <? 0x33e0)) then
        let summary := Some (big5_uni2indx_page30, ((Z.shiftr wc 4) - 0x300)) in
        big5_wctomb_j summary wc r
       else
        if ((wc >=? 0x4e00) &&& (wc <? 0x9fb0)) then
         let summary := Some (big5_uni2indx_page4e, ((Z.shiftr wc 4) - 0x4e0)) in
         big5_wctomb_j summary wc r
        else
         if ((wc >=? 0xfa00) &&& (wc <? 0xfa10)) then
          let summary := Some (big5_uni2indx_pagefa, ((Z.shiftr wc 4) - 0xfa0)) in
          big5_wctomb_j summary wc r
         else
          if ((wc >=? 0xfe00) &&& (wc <? 0xff70)) then
           let summary := Some (big5_uni2indx_pagefe, ((Z.shiftr wc 4) - 0xfe0)) in
           big5_wctomb_j summary wc r
          else
           big5_wctomb_j summary wc r
  else
   Ok ((-2), r).

(* lib/converters/cns11643_1.h:861-905 cns11643_1_mbtowc *)
Definition cns11643_1_mbtowc_j (wc : Z) (pwc : option Z) : res (Z * option Z) :=
  if (negb (wc =? 0xfffd)) then
   let pwc := Some wc in
   Ok (2, pwc)
  else
   Ok ((-1), pwc).
(* lib/converters/cns11643_1.h:861-905 cns11643_1_mbtowc *)
Definition cns11643_1_mbtowc (s : list Z) (n : nat) : res (Z * option Z) :=
  let pwc := (None : option Z) in
  rd s 0%nat (fun c1 =>
  if ((((c1 >=? 0x21) &&& (c1 <=? 0x27)) ||| (c1 =? 0x42)) ||| ((c1 >=? 0x44) &&& (c1 <=? 0x7d))) then
   if (Nat.leb 2%nat n) then
    rd s 1%nat (fun c2 =>
    if ((c2 >=? 0x21) &&& (c2 <? 0x7f)) then
     let i := ((0x5e * (c1 - 0x21)) + (c2 - 0x21)) in
     let wc := 0xfffd in
     if (i <? 0xc1e) then
      if (i <? 0x1f4) then
       tget cns11643_1_2uni_page21 i (fun wc =>
       cns11643_1_mbtowc_j wc pwc)
      else
       if (i =? 0x23b) then
        let wc := 0x4ea0 in
        cns11643_1_mbtowc_j wc pwc
       else
        if (i =? 0x242) then
         let wc := 0x51ab in
         cns11643_1_mbtowc_j wc pwc
        else
         if (i =? 0x247) then
          let wc := 0x52f9 in
          cns11643_1_mbtowc_j wc pwc
         else
          cns11643_1_mbtowc_j wc pwc
     else
      if (i <? 0xcda) then
       if (i <? 0xc40) then
        tget cns11643_1_2uni_page42 (i - 0xc1e) (fun wc =>
        cns11643_1_mbtowc_j wc pwc)
       else
        cns11643_1_mbtowc_j wc pwc
      else
       if (i <? 0x21f3) then
        tget cns11643_1_2uni_page44 (i - 0xcda) (fun wc =>
        cns11643_1_mbtowc_j wc pwc)
       else
        cns11643_1_mbtowc_j wc pwc
    else
     Ok ((-1), pwc))
   else
    Ok ((-2), pwc)
  else
   Ok ((-1), pwc)).

(* lib/converters/cns11643_2.h:1093-1120 cns11643_2_mbtowc *)
Definition cns11643_2_mbtowc_j (wc : Z) (pwc : option Z) : res (Z * option Z) :=
  if (negb (wc =? 0xfffd)) then
   let pwc := Some wc in
   Ok (2, pwc)
  else
   Ok ((-1), pwc).
(* lib/converters/cns11643_2.h:1093-1120 cns11643_2_mbtowc *)
Definition cns11643_2_mbtowc (s : list Z) (n : nat) : res (Z * option Z) :=
  let pwc := (None : option Z) in
  rd s 0%nat (fun c1 =>
  if ((c1 >=? 0x21) &&& (c1 <=? 0x72)) then
   if (Nat.leb 2%nat n) then
    rd s 1%nat (fun c2 =>
    if ((c2 >=? 0x21) &&& (c2 <? 0x7f)) then
     let i := ((0x5e * (c1 - 0x21)) + (c2 - 0x21)) in
     let wc := 0xfffd in
     if (i <? 0x1de2) then
      tget cns11643_2_2uni_page21 i (fun wc =>
      cns11643_2_mbtowc_j wc pwc)
     else
      cns11643_2_mbtowc_j wc pwc
    else
     Ok ((-1), pwc))
   else
    Ok ((-2), pwc)
  else
   Ok ((-1), pwc)).

(* lib/converters/cns11643_3.h:949-983 cns11643_3_mbtowc *)
Definition cns11643_3_mbtowc_j (wc : Z) (pwc : option Z) : res (Z * option Z) :=
  if (negb (wc =? 0xfffd)) then
   let pwc := Some wc in
   Ok (2, pwc)
  else
   Ok ((-1), pwc).
(* lib/converters/cns11643_3.h:949-983 cns11643_3_mbtowc *)
Definition cns11643_3_mbtowc (s : list Z) (n : nat) : res (Z * option Z) :=
  let pwc := (None : option Z) in
  rd s 0%nat (fun c1 =>
  if (((c1 >=? 0x21) &&& (c1 <=? 0x62)) ||| ((c1 >=? 0x64) &&& (c1 <=? 0x67))) then
   if (Nat.leb 2%nat n) then
    rd s 1%nat (fun c2 =>
    if ((c2 >=? 0x21) &&& (c2 <? 0x7f)) then
     let i := ((0x5e * (c1 - 0x21)) + (c2 - 0x21)) in
     let wc := 0xfffd in
     if (i <? 0x189a) then
      if (i <? 0x1804) then
       tget cns11643_3_2uni_page21 i (fun swc =>
       tget cns11643_3_2uni_upages (Z.shiftr swc 8) (fun x4 =>
       let wc := (Z.lor x4 (Z.land swc 0xff)) in
       cns11643_3_mbtowc_j wc pwc))
      else
       cns11643_3_mbtowc_j wc pwc
     else
      if (i <? 0x19be) then
       tget cns11643_3_2uni_page64 (i - 0x189a) (fun swc =>
       tget cns11643_3_2uni_upages (Z.shiftr swc 8) (fun x6 =>
       let wc := (Z.lor x6 (Z.land swc 0xff)) in
       cns11643_3_mbtowc_j wc pwc))
      else
       cns11643_3_mbtowc_j wc pwc
    else
     Ok ((-1), pwc))
   else
    Ok ((-2), pwc)
  else
   Ok ((-1), pwc)).

(* lib/converters/cns11643_4.h:38-68 cns11643_4_mbtowc *)
Definition cns11643_4_mbtowc_j (wc : Z) (pwc : option Z) : res (Z * option Z) :=
  if (negb (wc =? 0xfffd)) then
   let pwc := Some wc in
   Ok (2, pwc)
  else
   Ok ((-1), pwc).
(* lib/converters/cns11643_4.h:38-68 cns11643_4_mbtowc *)
Definition cns11643_4_mbtowc (s : list Z) (n : nat) : res (Z * option Z) :=
  let pwc := (None : option Z) in
  rd s 0%nat (fun c1 =>
  if ((c1 >=? 0x21) &&& (c1 <=? 0x6e)) then
   if (Nat.leb 2%nat n) then
    rd s 1%nat (fun c2 =>
    if ((c2 >=? 0x21) &&& (c2 <? 0x7f)) then
     let i := ((0x5e * (c1 - 0x21)) + (c2 - 0x21)) in
     let wc := 0xfffd in
     if (i <? 0xb62) then
      tget cns11643_4a_2uni_page21 i (fun swc =>
      tget cns11643_4a_2uni_upages (Z.shiftr swc 8) (fun x4 =>
      let wc := (Z.lor x4 (Z.land swc 0xff)) in
      cns11643_4_mbtowc_j wc pwc))
     else
      if (i <? 0x1c82) then
       tget cns11643_4b_2uni_page40 (i - 0xb62) (fun swc =>
       tget cns11643_4b_2uni_upages (Z.shiftr swc 8) (fun x6 =>
       let wc := (Z.lor x6 (Z.land swc 0xff)) in
       cns11643_4_mbtowc_j wc pwc))
      else
       cns11643_4_mbtowc_j wc pwc
    else
     Ok ((-1), pwc))
   else
    Ok ((-2), pwc)
  else
   Ok ((-1), pwc)).

(* lib/converters/cns11643_5.h:1258-1286 cns11643_5_mbtowc *)
Definition cns11643_5_mbtowc_j (wc : Z) (pwc : option Z) : res (Z * option Z) :=
  if (negb (wc =? 0xfffd)) then
   let pwc := Some wc in
   Ok (2, pwc)
  else
   Ok ((-1), pwc).
(* lib/converters/cns11643_5.h:1258-1286 cns11643_5_mbtowc *)
Definition cns11643_5_mbtowc (s : list Z) (n : nat) : res (Z * option Z) :=
  let pwc := (None : option Z) in
  rd s 0%nat (fun c1 =>
  if ((c1 >=? 0x21) &&& (c1 <=? 0x7c)) then
   if (Nat.leb 2%nat n) then
    rd s 1%nat (fun c2 =>
    if ((c2 >=? 0x21) &&& (c2 <? 0x7f)) then
     let i := ((0x5e * (c1 - 0x21)) + (c2 - 0x21)) in
     let wc := 0xfffd in
     if (i <? 0x219b) then
      tget cns11643_5_2uni_page21 i (fun swc =>
      tget cns11643_5_2uni_upages (Z.shiftr swc 8) (fun x4 =>
      let wc := (Z.lor x4 (Z.land swc 0xff)) in
      cns11643_5_mbtowc_j wc pwc))
     else
      cns11643_5_mbtowc_j wc pwc
    else
     Ok ((-1), pwc))
   else
    Ok ((-2), pwc)
  else
   Ok ((-1), pwc)).

(* lib/converters/cns11643_6.h:948-976 cns11643_6_mbtowc *)
Definition cns11643_6_mbtowc_j (wc : Z) (pwc : option Z) : res (Z * option Z) :=
  if (negb (wc =? 0xfffd)) then
   let pwc := Some wc in
   Ok (2, pwc)
  else
   Ok ((-1), pwc).
(* lib/converters/cns11643_6.h:948-976 cns11643_6_mbtowc *)
Definition cns11643_6_mbtowc (s : list Z) (n : nat) : res (Z * option Z) :=
  let pwc := (None : option Z) in
  rd s 0%nat (fun c1 =>
  if ((c1 >=? 0x21) &&& (c1 <=? 0x64)) then
   if (Nat.leb 2%nat n) then
    rd s 1%nat (fun c2 =>
    if ((c2 >=? 0x21) &&& (c2 <? 0x7f)) then
     let i := ((0x5e * (c1 - 0x21)) + (c2 - 0x21)) in
     let wc := 0xfffd in
     if (i <? 0x18f4) then
      tget cns11643_6_2uni_page21 i (fun swc =>
      tget cns11643_6_2uni_upages (Z.shiftr swc 8) (fun x4 =>
      let wc := (Z.lor x4 (Z.land swc 0xff)) in
      cns11643_6_mbtowc_j wc pwc))
     else
      cns11643_6_mbtowc_j wc pwc
    else
     Ok ((-1), pwc))
   else
    Ok ((-2), pwc)
  else
   Ok ((-1), pwc)).

(* lib/converters/cns11643_7.h:968-996 cns11643_7_mbtowc *)
Definition cns11643_7_mbtowc_j (wc : Z) (pwc : option Z) : res (Z * option Z) :=
  if (negb (wc =? 0xfffd)) then
   let pwc := Some wc in
   Ok (2, pwc)
  else
   Ok ((-1), pwc).
(* lib/converters/cns11643_7.h:968-996 cns11643_7_mbtowc *)
Definition cns11643_7_mbtowc (s : list Z) (n : nat) : res (Z * option Z) :=
  let pwc := (None : option Z) in
  rd s 0%nat (fun c1 =>
  if ((c1 >=? 0x21) &&& (c1 <=? 0x66)) then
   if (Nat.leb 2%nat n) then
    rd s 1%nat (fun c2 =>
    if ((c2 >=? 0x21) &&& (c2 <? 0x7f)) then
     let i := ((0x5e * (c1 - 0x21)) + (c2 - 0x21)) in
     let wc := 0xfffd in
     if (i <? 0x198b) then
      tget cns11643_7_2uni_page21 i (fun swc =>
      tget cns11643_7_2uni_upages (Z.shiftr swc 8) (fun x4 =>
      let wc := (Z.lor x4 (Z.land swc 0xff)) in
      cns11643_7_mbtowc_j wc pwc))
     else
      cns11643_7_mbtowc_j wc pwc
    else
     Ok ((-1), pwc))
   else
    Ok ((-2), pwc)
  else
   Ok ((-1), pwc)).

(* lib/converters/cns11643_15.h:1062-1090 cns11643_15_mbtowc *)
Definition cns11643_15_mbtowc_j (wc : Z) (pwc : option Z) : res (Z * option Z) :=
  if (negb (wc =? 0xfffd)) then
   let pwc := Some wc in
   Ok (2, pwc)
  else
   Ok ((-1), pwc).
(* lib/converters/cns11643_15.h:1062-1090 cns11643_15_mbtowc *)
Definition cns11643_15_mbtowc (s : list Z) (n : nat) : res (Z * option Z) :=
  let pwc := (None : option Z) in
  rd s 0%nat (fun c1 =>
  if ((c1 >=? 0x21) &&& (c1 <=? 0x6d)) then
   if (Nat.leb 2%nat n) then
    rd s 1%nat (fun c2 =>
    if ((c2 >=? 0x21) &&& (c2 <? 0x7f)) then
     let i := ((0x5e * (c1 - 0x21)) + (c2 - 0x21)) in
     let wc := 0xfffd in
     if (i <? 0x1c01) then
      tget cns11643_15_2uni_page21 i (fun swc =>
      tget cns11643_15_2uni_upages (Z.shiftr swc 8) (fun x4 =>
      let wc := (Z.lor x4 (Z.land swc 0xff)) in
      cns11643_15_mbtowc_j wc pwc))
     else
      cns11643_15_mbtowc_j wc pwc
    else
     Ok ((-1), pwc))
   else
    Ok ((-2), pwc)
  else
   Ok ((-1), pwc)).

(* lib/converters/cns11643_inv.h:15382-15428 cns11643_inv_wctomb *)
Definition cns11643_inv_wctomb_j (summary : option (tab * Z)) (wc : Z) (r : wlog) : res (Z * wlog) :=
  if (negb (isnull summary)) then
   sget summary 1 (fun used =>
   let i := (Z.land wc 0xf) in
   if (negb ((Z.land used (Z.shiftl 1 i)) =? 0)) then
    let used := (Z.land used ((Z.shiftl 1 i) - 1)) in
    let used := ((Z.land used 0x5555) + (Z.shiftr (Z.land used 0xaaaa) 1)) in
    let used := ((Z.land used 0x3333) + (Z.shiftr (Z.land used 0xcccc) 2)) in
    let used := ((Z.land used 0xf0f) + (Z.shiftr (Z.land used 0xf0f0) 4)) in
    let used := ((Z.land used 0xff) + (Z.shiftr used 8)) in
    sget summary 0 (fun x2 =>
    let used := (u16 (used + x2)) in
    tget cns11643_inv_2charset (3 * used) (fun x3 =>
    let r := wr r 0%nat x3 in
    tget cns11643_inv_2charset ((3 * used) + 1) (fun x4 =>
    let r := wr r 1%nat x4 in
    tget cns11643_inv_2charset ((3 * used) + 2) (fun x5 =>
    let r := wr r 2%nat x5 in
    Ok (3, r)))))
   else
    Ok ((-1), r))
  else
   Ok ((-1), r).
(* lib/converters/cns11643_inv.h:15382-15428 cns11643_inv_wctomb *)
Definition cns11643_inv_wctomb (wc : Z) (n : nat) : res (Z * wlog) :=
  let r := ([] : wlog) in
  if (Nat.leb 2%nat n) then
   let summary := (None : option (tab * Z)) in
   if ((wc >=? 0) &&& (wc <? 0x100)) then
    let summary := Some (cns11643_inv_uni2indx_page00, (Z.shiftr wc 4)) in
    cns11643_inv_wctomb_j summary wc r
   else
    if ((wc >=? 0x200) &&& (wc <? 0x3d0)) then
     let summary := Some (cns11643_inv_uni2indx_page02, ((Z.shiftr wc 4) - 0x20)) in
     cns11643_inv_wctomb_j summary wc r
    else
     if ((wc >=? 0x2000) &&& (wc <? 0x22c0)) then
      let summary := Some (cns11643_inv_uni2indx_page20, ((Z.shiftr wc 4) - 0x200)) in
      cns11643_inv_wctomb_j summary wc r
     else
      if ((wc >=? 0x2400) &&& (wc <? 0x2650)) then
       let summary := Some (cns11643_inv_uni2indx_page24, ((Z.shiftr wc 4) - 0x240)) in
       cns11643_inv_wctomb_j summary wc r
      else
       if ((wc >=? 0x3000) &&& (wc <? 0x9fb0)) then
        let summary := Some (cns11643_inv_uni2indx_page30, ((Z.shiftr wc 4) - 0x300)) in
        cns11643_inv_wctomb_j summary wc r
       else
        if ((wc >=? 0xfa00) &&& (wc <? 0xfa30)) then
         let summary := Some (cns11643_inv_uni2indx_pagefa, ((Z.shiftr wc 4) - 0xfa0)) in
         cns11643_inv_wctomb_j summary wc r
        else
         if ((wc >=? 0xfe00) &&& (wc <? 0xfff0)) then
          let summary := Some (cns11643_inv_uni2indx_pagefe, ((Z.shiftr wc 4) - 0xfe0)) in
          cns11643_inv_wctomb_j summary wc r
         else
          if ((wc >=? 0x20000) &&& (wc <? 0x2a6e0)) then
           let summary := Some (cns11643_inv_uni2indx_page200, ((Z.shiftr wc 4) - 0x2000)) in
           cns11643_inv_wctomb_j summary wc r
          else
           if ((wc >=? 0x2f800) &&& (wc <? 0x2fa20)) then
            let summary := Some (cns11643_inv_uni2indx_page2f8, ((Z.shiftr wc 4) - 0x2f80)) in
            cns11643_inv_wctomb_j summary wc r
           else
            cns11643_inv_wctomb_j summary wc r
  else
   Ok ((-2), r).

(* lib/converters/cp936ext.h:42-75 cp936ext_mbtowc *)
Definition cp936ext_mbtowc_j (wc : Z) (pwc : option Z) : res (Z * option Z) :=
  if (negb (wc =? 0xfffd)) then
   let pwc := Some wc in
   Ok (2, pwc)
  else
   Ok ((-1), pwc).
(* lib/converters/cp936ext.h:42-75 cp936ext_mbtowc *)
Definition cp936ext_mbtowc (s : list Z) (n : nat) : res (Z * option Z) :=
  let pwc := (None : option Z) in
  rd s 0%nat (fun c1 =>
  if ((c1 =? 0xa6) ||| (c1 =? 0xa8)) then
   if (Nat.leb 2%nat n) then
    rd s 1%nat (fun c2 =>
    if (((c2 >=? 0x40) &&& (c2 <? 0x7f)) ||| ((c2 >=? 0x80) &&& (c2 <? 0xff))) then
     let i := ((0xbe * (c1 - 0x81)) + (c2 - (if (c2 >=? 0x80) then 0x41 else 0x40))) in
     let wc := 0xfffd in
     if (i <? 0x1cf2) then
      if ((i >=? 0x1c15) &&& (i <? 0x1c2b)) then
       tget cp936ext_2uni_pagea6 (i - 0x1c15) (fun wc =>
       cp936ext_mbtowc_j wc pwc)
      else
       cp936ext_mbtowc_j wc pwc
     else
      if ((i >=? 0x1d6c) &&& (i <? 0x1d72)) then
       tget cp936ext_2uni_pagea8 (i - 0x1d6c) (fun wc =>
       cp936ext_mbtowc_j wc pwc)
      else
       cp936ext_mbtowc_j wc pwc
    else
     Ok ((-1), pwc))
   else
    Ok ((-2), pwc)
  else
   Ok ((-1), pwc)).

(* lib/converters/cp936ext.h:92-112 cp936ext_wctomb *)
Definition cp936ext_wctomb_j (c : Z) (r : wlog) : res (Z * wlog) :=
  if (negb (c =? 0)) then
   let r := wr r 0%nat (Z.shiftr c 8) in
   let r := wr r 1%nat (Z.land c 0xff) in
   Ok (2, r)
  else
   Ok ((-1), r).
(* lib/converters/cp936ext.h:92-112 cp936ext_wctomb *)
Definition cp936ext_wctomb (wc : Z) (n : nat) : res (Z * wlog) :=
  let r := ([] : wlog) in
  if (Nat.leb 2%nat n) then
   let c := 0 in
   if ((wc >=? 0x140) &&& (wc <? 0x150)) then
    tget cp936ext_page01 (wc - 0x140) (fun c =>
    cp936ext_wctomb_j c r)
   else
    if ((wc >=? 0x250) &&& (wc <? 0x268)) then
     tget cp936ext_page02 (wc - 0x250) (fun c =>
     cp936ext_wctomb_j c r)
    else
     if ((wc >=? 0xfe30) &&& (wc <? 0xfe48)) then
      tget cp936ext_pagefe (wc - 0xfe30) (fun c =>
      cp936ext_wctomb_j c r)
     else
      cp936ext_wctomb_j c r
  else
   Ok ((-2), r).

(* lib/converters/gbkext1.h:833-860 gbkext1_mbtowc *)
Definition gbkext1_mbtowc_j (wc : Z) (pwc : option Z) : res (Z * option Z) :=
  if (negb (wc =? 0xfffd)) then
   let pwc := Some wc in
   Ok (2, pwc)
  else
   Ok ((-1), pwc).
(* lib/converters/gbkext1.h:833-860 gbkext1_mbtowc *)
Definition gbkext1_mbtowc (s : list Z) (n : nat) : res (Z * option Z) :=
  let pwc := (None : option Z) in
  rd s 0%nat (fun c1 =>
  if ((c1 >=? 0x81) &&& (c1 <=? 0xa0)) then
   if (Nat.leb 2%nat n) then
    rd s 1%nat (fun c2 =>
    if (((c2 >=? 0x40) &&& (c2 <? 0x7f)) ||| ((c2 >=? 0x80) &&& (c2 <? 0xff))) then
     let i := (u32 ((0xbe * (c1 - 0x81)) + (c2 - (if (c2 >=? 0x80) then 0x41 else 0x40)))) in
     let wc := 0xfffd in
     if (i <? 0x17c0) then
      tget gbkext1_2uni_page81 i (fun wc =>
      gbkext1_mbtowc_j wc pwc)
     else
      gbkext1_mbtowc_j wc pwc
    else
     Ok ((-1), pwc))
   else
    Ok ((-2), pwc)
  else
   Ok ((-1), pwc)).

(* lib/converters/gbkext2.h:1154-1181 gbkext2_mbtowc *)
Definition gbkext2_mbtowc_j (wc : Z) (pwc : option Z) : res (Z * option Z) :=
  if (negb (wc =? 0xfffd)) then
   let pwc := Some wc in
   Ok (2, pwc)
  else
   Ok ((-1), pwc).
(* lib/converters/gbkext2.h:1154-1181 gbkext2_mbtowc *)
Definition gbkext2_mbtowc (s : list Z) (n : nat) : res (Z * option Z) :=
  let pwc := (None : option Z) in
  rd s 0%nat (fun c1 =>
  if ((c1 >=? 0xa8) &&& (c1 <=? 0xfe)) then
   if (Nat.leb 2%nat n) then
    rd s 1%nat (fun c2 =>
    if (((c2 >=? 0x40) &&& (c2 <? 0x7f)) ||| ((c2 >=? 0x80) &&& (c2 <? 0xa1))) then
     let i := ((0x60 * (c1 - 0x81)) + (c2 - (if (c2 >=? 0x80) then 0x41 else 0x40))) in
     let wc := 0xfffd in
     if (i <? 0x2ef0) then
      tget gbkext2_2uni_pagea8 (u32 (i - 0xea0)) (fun wc =>
      gbkext2_mbtowc_j wc pwc)
     else
      gbkext2_mbtowc_j wc pwc
    else
     Ok ((-1), pwc))
   else
    Ok ((-2), pwc)
  else
   Ok ((-1), pwc)).

(* lib/converters/gbkext_inv.h:2307-2351 gbkext_inv_wctomb *)
Definition gbkext_inv_wctomb_j (summary : option (tab * Z)) (wc : Z) (r : wlog) : res (Z * wlog) :=
  if (negb (isnull summary)) then
   sget summary 1 (fun used =>
   let i := (Z.land wc 0xf) in
   if (negb ((Z.land used (Z.shiftl 1 i)) =? 0)) then
    let used := (Z.land used ((Z.shiftl 1 i) - 1)) in
    let used := ((Z.land used 0x5555) + (Z.shiftr (Z.land used 0xaaaa) 1)) in
    let used := ((Z.land used 0x3333) + (Z.shiftr (Z.land used 0xcccc) 2)) in
    let used := ((Z.land used 0xf0f) + (Z.shiftr (Z.land used 0xf0f0) 4)) in
    let used := ((Z.land used 0xff) + (Z.shiftr used 8)) in
    sget summary 0 (fun x2 =>
    tget gbkext_inv_2charset (x2 + used) (fun c =>
    let r := wr r 0%nat (Z.shiftr c 8) in
    let r := wr r 1%nat (Z.land c 0xff) in
    Ok (2, r)))
   else
    Ok ((-1), r))
  else
   Ok ((-1), r).
(* lib/converters/gbkext_inv.h:2307-2351 gbkext_inv_wctomb *)
Definition gbkext_inv_wctomb (wc : Z) (n : nat) : res (Z * wlog) :=
  let r := ([] : wlog) in
  if (Nat.leb 2%nat n) then
   let summary := (None : option (tab * Z)) in
   if ((wc >=? 0x200) &&& (wc <? 0x2e0)) then
    let summary := Some (gbkext_inv_uni2indx_page02, ((Z.shiftr wc 4) - 0x20)) in
    gbkext_inv_wctomb_j summary wc r
   else
    if ((wc >=? 0x2000) &&& (wc <? 0x22c0)) then
     let summary := Some (gbkext_inv_uni2indx_page20, ((Z.shiftr wc 4) - 0x200)) in
     gbkext_inv_wctomb_j summary wc r
    else
     if ((wc >=? 0x2500) &&& (wc <? 0x2610)) then
      let summary := Some (gbkext_inv_uni2indx_page25, ((Z.shiftr wc 4) - 0x250)) in
      gbkext_inv_wctomb_j summary wc r
     else
      if ((wc >=? 0x3000) &&& (wc <? 0x3100)) then
       let summary := Some (gbkext_inv_uni2indx_page30, ((Z.shiftr wc 4) - 0x300)) in
       gbkext_inv_wctomb_j summary wc r
      else
       if ((wc >=? 0x3200) &&& (wc <? 0x33e0)) then
        let summary := Some (gbkext_inv_uni2indx_page32, ((Z.shiftr wc 4) - 0x320)) in
        gbkext_inv_wctomb_j summary wc r
       else
        if ((wc >=? 0x4e00) &&& (wc <? 0x9fb0)) then
         let summary := Some (gbkext_inv_uni2indx_page4e, ((Z.shiftr wc 4) - 0x4e0)) in
         gbkext_inv_wctomb_j summary wc r
        else
         if ((wc >=? 0xf900) &&& (wc <? 0xfa30)) then
          let summary := Some (gbkext_inv_uni2indx_pagef9, ((Z.shiftr wc 4) - 0xf90)) in
          gbkext_inv_wctomb_j summary wc r
         else
          if ((wc >=? 0xfe00) &&& (wc <? 0xfff0)) then
           let summary := Some (gbkext_inv_uni2indx_pagefe, ((Z.shiftr wc 4) - 0xfe0)) in
           gbkext_inv_wctomb_j summary wc r
          else
           gbkext_inv_wctomb_j summary wc r
  else
   Ok ((-2), r).

(* lib/converters/gbk.h:71-126 gbk_mbtowc *)
Definition gbk_mbtowc_j2 (c : Z) (s : list Z) (pwc : option Z) : res (Z * option Z) :=
  if ((c >=? 0x81) &&& (c <=? 0xa0)) then
   bind (gbkext1_mbtowc s 2%nat) (fun '(x5, o) =>
   let pwc := oset pwc o in
   Ok (x5, pwc))
  else
   if ((c >=? 0xa8) &&& (c <=? 0xfe)) then
    bind (gbkext2_mbtowc s 2%nat) (fun '(x6, o) =>
    let pwc := oset pwc o in
    Ok (x6, pwc))
   else
    if (c =? 0xa2) then
     rd s 1%nat (fun c2 =>
     if ((c2 >=? 0xa1) &&& (c2 <=? 0xaa)) then
      let pwc := Some (0x2170 + (c2 - 0xa1)) in
      Ok (2, pwc)
     else
      Ok ((-1), pwc))
    else
     Ok ((-1), pwc).
(* lib/converters/gbk.h:71-126 gbk_mbtowc *)
Definition gbk_mbtowc_j (c : Z) (c2 : Z) (s : list Z) (pwc : option Z) : res (Z * option Z) :=
  if ((c2 >=? 0xa1) &&& (c2 <? 0xff)) then
   let buf := ([] : wlog) in
   wrb 2%nat buf 0%nat (c - 0x80) (fun buf =>
   wrb 2%nat buf 1%nat (c2 - 0x80) (fun buf =>
   bind (gb2312_mbtowc (lbuf buf 0%nat 2%nat) 2%nat) (fun '(ret, o) =>
   let pwc := oset pwc o in
   if (negb (ret =? (-1))) then
    Ok (ret, pwc)
   else
    wrb 2%nat buf 0%nat c (fun buf =>
    wrb 2%nat buf 1%nat c2 (fun buf =>
    bind (cp936ext_mbtowc (lbuf buf 0%nat 2%nat) 2%nat) (fun '(ret, o) =>
    let pwc := oset pwc o in
    if (negb (ret =? (-1))) then
     Ok (ret, pwc)
    else
     gbk_mbtowc_j2 c s pwc))))))
  else
   gbk_mbtowc_j2 c s pwc.
(* lib/converters/gbk.h:71-126 gbk_mbtowc *)
Definition gbk_mbtowc (s : list Z) (n : nat) : res (Z * option Z) :=
  let pwc := (None : option Z) in
  rd s 0%nat (fun c =>
  if ((c >=? 0x81) &&& (c <? 0xff)) then
   if (Nat.ltb n 2%nat) then
    Ok ((-2), pwc)
   else
    if ((c >=? 0xa1) &&& (c <=? 0xf7)) then
     rd s 1%nat (fun c2 =>
     if (c =? 0xa1) then
      if (c2 =? 0xa4) then
       let pwc := Some 0xb7 in
       Ok (2, pwc)
      else
       if (c2 =? 0xaa) then
        let pwc := Some 0x2014 in
        Ok (2, pwc)
       else
        gbk_mbtowc_j c c2 s pwc
     else
      gbk_mbtowc_j c c2 s pwc)
    else
     gbk_mbtowc_j2 c s pwc
  else
   Ok ((-1), pwc)).

(* lib/converters/gbk.h:128-195 gbk_wctomb *)
Definition gbk_wctomb_j (buf : wlog) (wc : Z) (n : nat) (r : wlog) : res (Z * wlog) :=
  bind (gbkext_inv_wctomb wc 2%nat) (fun '(ret, l) =>
  lappb 2%nat buf 0%nat l (fun buf =>
  if (negb (ret =? (-1))) then
   if (negb (ret =? 2)) then
    Abort
   else
    if (Nat.ltb n 2%nat) then
     Ok ((-2), r)
    else
     lrd buf 0%nat (fun x5 =>
     let r := wr r 0%nat x5 in
     lrd buf 1%nat (fun x6 =>
     let r := wr r 1%nat x6 in
     Ok (2, r)))
  else
   if ((wc >=? 0x2170) &&& (wc <=? 0x2179)) then
    if (Nat.ltb n 2%nat) then
     Ok ((-2), r)
    else
     let r := wr r 0%nat 0xa2 in
     let r := wr r 1%nat (0xa1 + (wc - 0x2170)) in
     Ok (2, r)
   else
    bind (cp936ext_wctomb wc 2%nat) (fun '(ret, l) =>
    lappb 2%nat buf 0%nat l (fun buf =>
    if (negb (ret =? (-1))) then
     if (negb (ret =? 2)) then
      Abort
     else
      if (Nat.ltb n 2%nat) then
       Ok ((-2), r)
      else
       lrd buf 0%nat (fun x8 =>
       let r := wr r 0%nat x8 in
       lrd buf 1%nat (fun x9 =>
       let r := wr r 1%nat x9 in
       Ok (2, r)))
    else
     if (wc =? 0xb7) then
      if (Nat.ltb n 2%nat) then
       Ok ((-2), r)
      else
       let r := wr r 0%nat 0xa1 in
       let r := wr r 1%nat 0xa4 in
       Ok (2, r)
     else
      if (wc =? 0x2014) then
       if (Nat.ltb n 2%nat) then
        Ok ((-2), r)
       else
        let r := wr r 0%nat 0xa1 in
        let r := wr r 1%nat 0xaa in
        Ok (2, r)
      else
       Ok ((-1), r))))).
(* lib/converters/gbk.h:128-195 gbk_wctomb *)
Definition gbk_wctomb (wc : Z) (n : nat) : res (Z * wlog) :=
  let r := ([] : wlog) in
  let buf := ([] : wlog) in
  if ((negb (wc =? 0x30fb)) &&& (negb (wc =? 0x2015))) then
   bind (gb2312_wctomb wc 2%nat) (fun '(ret, l) =>
   lappb 2%nat buf 0%nat l (fun buf =>
   if (negb (ret =? (-1))) then
    if (negb (ret =? 2)) then
     Abort
    else
     if (Nat.ltb n 2%nat) then
      Ok ((-2), r)
     else
      lrd buf 0%nat (fun x2 =>
      let r := wr r 0%nat (u8 (x2 + 0x80)) in
      lrd buf 1%nat (fun x3 =>
      let r := wr r 1%nat (u8 (x3 + 0x80)) in
      Ok (2, r)))
   else
    gbk_wctomb_j buf wc n r))
  else
   gbk_wctomb_j buf wc n r.

(* lib/converters/hkscs1999.h:857-902 hkscs1999_mbtowc *)
Definition hkscs1999_mbtowc_j (wc : Z) (pwc : option Z) : res (Z * option Z) :=
  if (negb (wc =? 0xfffd)) then
   let pwc := Some wc in
   Ok (2, pwc)
  else
   Ok ((-1), pwc).
(* lib/converters/hkscs1999.h:857-902 hkscs1999_mbtowc *)
Definition hkscs1999_mbtowc (s : list Z) (n : nat) : res (Z * option Z) :=
  let pwc := (None : option Z) in
  rd s 0%nat (fun c1 =>
  if (((((c1 >=? 0x88) &&& (c1 <=? 0x8b)) ||| ((c1 >=? 0x8d) &&& (c1 <=? 0xa0))) ||| ((c1 >=? 0xc6) &&& (c1 <=? 0xc8))) ||| ((c1 >=? 0xf9) &&& (c1 <=? 0xfe))) then
   if (Nat.leb 2%nat n) then
    rd s 1%nat (fun c2 =>
    if (((c2 >=? 0x40) &&& (c2 <? 0x7f)) ||| ((c2 >=? 0xa1) &&& (c2 <? 0xff))) then
     let i := ((0x9d * (c1 - 0x80)) + (c2 - (if (c2 >=? 0xa1) then 0x62 else 0x40))) in
     let wc := 0xfffd in
     if (i <? 0x7f9) then
      if (i <? 0x75b) then
       tget hkscs1999_2uni_page88 (u32 (i - 0x4e8)) (fun swc =>
       tget hkscs1999_2uni_upages (Z.shiftr swc 6) (fun x4 =>
       let wc := (Z.lor x4 (Z.land swc 0x3f)) in
       hkscs1999_mbtowc_j wc pwc))
      else
       hkscs1999_mbtowc_j wc pwc
     else
      if (i <? 0x2aee) then
       if (i <? 0x143d) then
        tget hkscs1999_2uni_page8d (i - 0x7f9) (fun swc =>
        tget hkscs1999_2uni_upages (Z.shiftr swc 6) (fun x6 =>
        let wc := (Z.lor x6 (Z.land swc 0x3f)) in
        hkscs1999_mbtowc_j wc pwc))
       else
        hkscs1999_mbtowc_j wc pwc
      else
       if (i <? 0x4a35) then
        if (i <? 0x2cc5) then
         tget hkscs1999_2uni_pagec6 (i - 0x2aee) (fun swc =>
         tget hkscs1999_2uni_upages (Z.shiftr swc 6) (fun x8 =>
         let wc := (Z.lor x8 (Z.land swc 0x3f)) in
         hkscs1999_mbtowc_j wc pwc))
        else
         hkscs1999_mbtowc_j wc pwc
       else
        if (i <? 0x4de3) then
         tget hkscs1999_2uni_pagef9 (i - 0x4a35) (fun swc =>
         tget hkscs1999_2uni_upages (Z.shiftr swc 6) (fun x10 =>
         let wc := (Z.lor x10 (Z.land swc 0x3f)) in
         hkscs1999_mbtowc_j wc pwc))
        else
         hkscs1999_mbtowc_j wc pwc
    else
     Ok ((-1), pwc))
   else
    Ok ((-2), pwc)
  else
   Ok ((-1), pwc)).

(* lib/converters/hkscs1999.h:2964-3020 hkscs1999_wctomb *)
Definition hkscs1999_wctomb_j (summary : option (tab * Z)) (wc : Z) (r : wlog) : res (Z * wlog) :=
  if (negb (isnull summary)) then
   sget summary 1 (fun used =>
   let i := (Z.land wc 0xf) in
   if (negb ((Z.land used (Z.shiftl 1 i)) =? 0)) then
    let used := (Z.land used ((Z.shiftl 1 i) - 1)) in
    let used := ((Z.land used 0x5555) + (Z.shiftr (Z.land used 0xaaaa) 1)) in
    let used := ((Z.land used 0x3333) + (Z.shiftr (Z.land used 0xcccc) 2)) in
    let used := ((Z.land used 0xf0f) + (Z.shiftr (Z.land used 0xf0f0) 4)) in
    let used := ((Z.land used 0xff) + (Z.shiftr used 8)) in
    sget summary 0 (fun x2 =>
    tget hkscs1999_2charset (x2 + used) (fun c =>
    let r := wr r 0%nat (Z.shiftr c 8) in
    let r := wr r 1%nat (Z.land c 0xff) in
    Ok (2, r)))
   else
    Ok ((-1), r))
  else
   Ok ((-1), r).
(* lib/converters/hkscs1999.h:2964-3020 hkscs1999_wctomb *)
Definition hkscs1999_wctomb (wc : Z) (n : nat) : res (Z * wlog) :=
  let r := ([] : wlog) in
  if (Nat.leb 2%nat n) then
   let summary := (None : option (tab * Z)) in
   if ((wc >=? 0) &&& (wc <? 0x2d0)) then
    let summary := Some (hkscs1999_uni2indx_page00, (Z.shiftr wc 4)) in
    hkscs1999_wctomb_j summary wc r
   else
    if ((wc >=? 0x400) &&& (wc <? 0x460)) then
     let summary := Some (hkscs1999_uni2indx_page04, ((Z.shiftr wc 4) - 0x40)) in
     hkscs1999_wctomb_j summary wc r
    else
     if ((wc >=? 0x1e00) &&& (wc <? 0x1ed0)) then
      let summary := Some (hkscs1999_uni2indx_page1e, ((Z.shiftr wc 4) - 0x1e0)) in
      hkscs1999_wctomb_j summary wc r
     else
      if ((wc >=? 0x2100) &&& (wc <? 0x21f0)) then
       let summary := Some (hkscs1999_uni2indx_page21, ((Z.shiftr wc 4) - 0x210)) in
       hkscs1999_wctomb_j summary wc r
      else
       if ((wc >=? 0x2300) &&& (wc <? 0x2580)) then
        let summary := Some (hkscs1999_uni2indx_page23, ((Z.shiftr wc 4) - 0x230)) in
        hkscs1999_wctomb_j summary wc r
       else
        if ((wc >=? 0x2700) &&& (wc <? 0x2740)) then
         let summary := Some (hkscs1999_uni2indx_page27, ((Z.shiftr wc 4) - 0x270)) in
         hkscs1999_wctomb_j summary wc r
        else
         if ((wc >=? 0x2e00) &&& (wc <? 0x3240)) then
          let summary := Some (hkscs1999_uni2indx_page2e, ((Z.shiftr wc 4) - 0x2e0)) in
          hkscs1999_wctomb_j summary wc r
         else
          if ((wc >=? 0x3400) &&& (wc <? 0x9fc0)) then
           let summary := Some (hkscs1999_uni2indx_page34, ((Z.shiftr wc 4) - 0x340)) in
           hkscs1999_wctomb_j summary wc r
          else
           if ((wc >=? 0xf900) &&& (wc <? 0xf910)) then
            let summary := Some (hkscs1999_uni2indx_pagef9, ((Z.shiftr wc 4) - 0xf90)) in
            hkscs1999_wctomb_j summary wc r
           else
            if ((wc >=? 0xff00) &&& (wc <? 0xfff0)) then
             let summary := Some (hkscs1999_uni2indx_pageff, ((Z.shiftr wc 4) - 0xff0)) in
             hkscs1999_wctomb_j summary wc r
            else
             if ((wc >=? 0x20000) &&& (wc <? 0x291f0)) then
              let summary := Some (hkscs1999_uni2indx_page200, ((Z.shiftr wc 4) - 0x2000)) in
              hkscs1999_wctomb_j summary wc r
             else
              if ((wc >=? 0x29400) &&& (wc <? 0x29600)) then
               let summary := Some (hkscs1999_uni2indx_page294, ((Z.shiftr wc 4) - 0x2940)) in
               hkscs1999_wctomb_j summary wc r
              else
               if ((wc >=? 0x29700) &&& (wc <? 0x2a6b0)) then
                let summary := Some (hkscs1999_uni2indx_page297, ((Z.shiftr wc 4) - 0x2970)) in
                hkscs1999_wctomb_j summary wc r
               else
                if ((wc >=? 0x2f800) &&& (wc <? 0x2f9e0)) then
                 let summary := Some (hkscs1999_uni2indx_page2f8, ((Z.shiftr wc 4) - 0x2f80)) in
                 hkscs1999_wctomb_j summary wc r
                else
                 hkscs1999_wctomb_j summary wc r
  else
   Ok ((-2), r).

(* lib/converters/hkscs2001.h:64-92 hkscs2001_mbtowc *)
Definition hkscs2001_mbtowc_j (wc : Z) (pwc : option Z) : res (Z * option Z) :=
  if (negb (wc =? 0xfffd)) then
   let pwc := Some wc in
   Ok (2, pwc)
  else
   Ok ((-1), pwc).
(* lib/converters/hkscs2001.h:64-92 hkscs2001_mbtowc *)
Definition hkscs2001_mbtowc (s : list Z) (n : nat) : res (Z * option Z) :=
  let pwc := (None : option Z) in
  rd s 0%nat (fun c1 =>
  if (c1 =? 0x8c) then
   if (Nat.leb 2%nat n) then
    rd s 1%nat (fun c2 =>
    if (((c2 >=? 0x40) &&& (c2 <? 0x7f)) ||| ((c2 >=? 0xa1) &&& (c2 <? 0xff))) then
     let i := ((0x9d * (c1 - 0x80)) + (c2 - (if (c2 >=? 0xa1) then 0x62 else 0x40))) in
     let wc := 0xfffd in
     if (i <? 0x7d7) then
      tget hkscs2001_2uni_page8c (u32 (i - 0x75c)) (fun swc =>
      tget hkscs2001_2uni_upages (Z.shiftr swc 8) (fun x4 =>
      let wc := (Z.lor x4 (Z.land swc 0xff)) in
      hkscs2001_mbtowc_j wc pwc))
     else
      hkscs2001_mbtowc_j wc pwc
    else
     Ok ((-1), pwc))
   else
    Ok ((-2), pwc)
  else
   Ok ((-1), pwc)).

(* lib/converters/hkscs2001.h:560-702 hkscs2001_wctomb *)
Definition hkscs2001_wctomb_j (summary : option (tab * Z)) (wc : Z) (r : wlog) : res (Z * wlog) :=
  if (negb (isnull summary)) then
   sget summary 1 (fun used =>
   let i := (Z.land wc 0xf) in
   if (negb ((Z.land used (Z.shiftl 1 i)) =? 0)) then
    let used := (Z.land used ((Z.shiftl 1 i) - 1)) in
    let used := ((Z.land used 0x5555) + (Z.shiftr (Z.land used 0xaaaa) 1)) in
    let used := ((Z.land used 0x3333) + (Z.shiftr (Z.land used 0xcccc) 2)) in
    let used := ((Z.land used 0xf0f) + (Z.shiftr (Z.land used 0xf0f0) 4)) in
    let used := ((Z.land used 0xff) + (Z.shiftr used 8)) in
    sget summary 0 (fun x2 =>
    tget hkscs2001_2charset (x2 + used) (fun c =>
    let r := wr r 0%nat (Z.shiftr c 8) in
    let r := wr r 1%nat (Z.land c 0xff) in
    Ok (2, r)))
   else
    Ok ((-1), r))
  else
   Ok ((-1), r).
(* lib/converters/hkscs2001.h:560-702 hkscs2001_wctomb *)
Definition hkscs2001_wctomb (wc : Z) (n : nat) : res (Z * wlog) :=
  let r := ([] : wlog) in
  if (Nat.leb 2%nat n) then
   let summary := (None : option (tab * Z)) in
   if (wc <? 0x9f00) then
    if (wc <? 0x6900) then
     if ((wc >=? 0x3500) &&& (wc <? 0x3560)) then
      let summary := Some (hkscs2001_uni2indx_page35, ((Z.shiftr wc 4) - 0x350)) in
      hkscs2001_wctomb_j summary wc r
     else
      if ((wc >=? 0x3c00) &&& (wc <? 0x3ee0)) then
       let summary := Some (hkscs2001_uni2indx_page3c, ((Z.shiftr wc 4) - 0x3c0)) in
       hkscs2001_wctomb_j summary wc r
      else
       if ((wc >=? 0x4000) &&& (wc <? 0x4080)) then
        let summary := Some (hkscs2001_uni2indx_page40, ((Z.shiftr wc 4) - 0x400)) in
        hkscs2001_wctomb_j summary wc r
       else
        if ((wc >=? 0x4200) &&& (wc <? 0x42b0)) then
         let summary := Some (hkscs2001_uni2indx_page42, ((Z.shiftr wc 4) - 0x420)) in
         hkscs2001_wctomb_j summary wc r
        else
         if ((wc >=? 0x4b00) &&& (wc <? 0x4c90)) then
          let summary := Some (hkscs2001_uni2indx_page4b, ((Z.shiftr wc 4) - 0x4b0)) in
          hkscs2001_wctomb_j summary wc r
         else
          if ((wc >=? 0x4e00) &&& (wc <? 0x51b0)) then
           let summary := Some (hkscs2001_uni2indx_page4e, ((Z.shiftr wc 4) - 0x4e0)) in
           hkscs2001_wctomb_j summary wc r
          else
           if ((wc >=? 0x5300) &&& (wc <? 0x5440)) then
            let summary := Some (hkscs2001_uni2indx_page53, ((Z.shiftr wc 4) - 0x530)) in
            hkscs2001_wctomb_j summary wc r
           else
            if ((wc >=? 0x5700) &&& (wc <? 0x58e0)) then
             let summary := Some (hkscs2001_uni2indx_page57, ((Z.shiftr wc 4) - 0x570)) in
             hkscs2001_wctomb_j summary wc r
            else
             if ((wc >=? 0x5a00) &&& (wc <? 0x5fd0)) then
              let summary := Some (hkscs2001_uni2indx_page5a, ((Z.shiftr wc 4) - 0x5a0)) in
              hkscs2001_wctomb_j summary wc r
             else
              if ((wc >=? 0x6100) &&& (wc <? 0x6130)) then
               let summary := Some (hkscs2001_uni2indx_page61, ((Z.shiftr wc 4) - 0x610)) in
               hkscs2001_wctomb_j summary wc r
              else
               if ((wc >=? 0x6500) &&& (wc <? 0x6590)) then
                let summary := Some (hkscs2001_uni2indx_page65, ((Z.shiftr wc 4) - 0x650)) in
                hkscs2001_wctomb_j summary wc r
               else
                if ((wc >=? 0x6700) &&& (wc <? 0x6770)) then
                 let summary := Some (hkscs2001_uni2indx_page67, ((Z.shiftr wc 4) - 0x670)) in
                 hkscs2001_wctomb_j summary wc r
                else
                 hkscs2001_wctomb_j summary wc r
    else
     if ((wc >=? 0x6900) &&& (wc <? 0x6a70)) then
      let summary := Some (hkscs2001_uni2indx_page69, ((Z.shiftr wc 4) - 0x690)) in
      hkscs2001_wctomb_j summary wc r
     else
      if ((wc >=? 0x6c00) &&& (wc <? 0x6e00)) then
       let summary := Some (hkscs2001_uni2indx_page6c, ((Z.shiftr wc 4) - 0x6c0)) in
       hkscs2001_wctomb_j summary wc r
      else
       if ((wc >=? 0x7000) &&& (wc <? 0x74c0)) then
        let summary := Some (hkscs2001_uni2indx_page70, ((Z.shiftr wc 4) - 0x700)) in
        hkscs2001_wctomb_j summary wc r
       else
        if ((wc >=? 0x7600) &&& (wc <? 0x78f0)) then
         let summary := Some (hkscs2001_uni2indx_page76, ((Z.shiftr wc 4) - 0x760)) in
         hkscs2001_wctomb_j summary wc r
        else
         if ((wc >=? 0x7a00) &&& (wc <? 0x7e70)) then
          let summary := Some (hkscs2001_uni2indx_page7a, ((Z.shiftr wc 4) - 0x7a0)) in
          hkscs2001_wctomb_j summary wc r
         else
          if ((wc >=? 0x8200) &&& (wc <? 0x8300)) then
           let summary := Some (hkscs2001_uni2indx_page82, ((Z.shiftr wc 4) - 0x820)) in
           hkscs2001_wctomb_j summary wc r
          else
           if ((wc >=? 0x8500) &&& (wc <? 0x8610)) then
            let summary := Some (hkscs2001_uni2indx_page85, ((Z.shiftr wc 4) - 0x850)) in
            hkscs2001_wctomb_j summary wc r
           else
            if ((wc >=? 0x8800) &&& (wc <? 0x88a0)) then
             let summary := Some (hkscs2001_uni2indx_page88, ((Z.shiftr wc 4) - 0x880)) in
             hkscs2001_wctomb_j summary wc r
            else
             if ((wc >=? 0x8b00) &&& (wc <? 0x8b90)) then
              let summary := Some (hkscs2001_uni2indx_page8b, ((Z.shiftr wc 4) - 0x8b0)) in
              hkscs2001_wctomb_j summary wc r
             else
              if ((wc >=? 0x8e00) &&& (wc <? 0x8fd0)) then
               let summary := Some (hkscs2001_uni2indx_page8e, ((Z.shiftr wc 4) - 0x8e0)) in
               hkscs2001_wctomb_j summary wc r
              else
               if ((wc >=? 0x9100) &&& (wc <? 0x9400)) then
                let summary := Some (hkscs2001_uni2indx_page91, ((Z.shiftr wc 4) - 0x910)) in
                hkscs2001_wctomb_j summary wc r
               else
                if ((wc >=? 0x9700) &&& (wc <? 0x99f0)) then
                 let summary := Some (hkscs2001_uni2indx_page97, ((Z.shiftr wc 4) - 0x970)) in
                 hkscs2001_wctomb_j summary wc r
                else
                 hkscs2001_wctomb_j summary wc r
   else
    if (wc <? 0x25600) then
     if ((wc >=? 0x9f00) &&& (wc <? 0x9fb0)) then
      let summary := Some (hkscs2001_uni2indx_page9f, ((Z.shiftr wc 4) - 0x9f0)) in
      hkscs2001_wctomb_j summary wc r
     else
      if ((wc >=? 0x21400) &&& (wc <? 0x21440)) then
       let summary := Some (hkscs2001_uni2indx_page214, ((Z.shiftr wc 4) - 0x2140)) in
       hkscs2001_wctomb_j summary wc r
      else
       if ((wc >=? 0x21900) &&& (wc <? 0x21990)) then
        let summary := Some (hkscs2001_uni2indx_page219, ((Z.shiftr wc 4) - 0x2190)) in
        hkscs2001_wctomb_j summary wc r
       else
        if ((wc >=? 0x21d00) &&& (wc <? 0x21dc0)) then
         let summary := Some (hkscs2001_uni2indx_page21d, ((Z.shiftr wc 4) - 0x21d0)) in
         hkscs2001_wctomb_j summary wc r
        else
         if ((wc >=? 0x22000) &&& (wc <? 0x22080)) then
          let summary := Some (hkscs2001_uni2indx_page220, ((Z.shiftr wc 4) - 0x2200)) in
          hkscs2001_wctomb_j summary wc r
         else
          if ((wc >=? 0x22700) &&& (wc <? 0x22720)) then
           let summary := Some (hkscs2001_uni2indx_page227, ((Z.shiftr wc 4) - 0x2270)) in
           hkscs2001_wctomb_j summary wc r
          else
           if ((wc >=? 0x23200) &&& (wc <? 0x23400)) then
            let summary := Some (hkscs2001_uni2indx_page232, ((Z.shiftr wc 4) - 0x2320)) in
            hkscs2001_wctomb_j summary wc r
           else
            if ((wc >=? 0x23c00) &&& (wc <? 0x23c70)) then
             let summary := Some (hkscs2001_uni2indx_page23c, ((Z.shiftr wc 4) - 0x23c0)) in
             hkscs2001_wctomb_j summary wc r
            else
             if ((wc >=? 0x24100) &&& (wc <? 0x24150)) then
              let summary := Some (hkscs2001_uni2indx_page241, ((Z.shiftr wc 4) - 0x2410)) in
              hkscs2001_wctomb_j summary wc r
             else
              if ((wc >=? 0x24500) &&& (wc <? 0x24510)) then
               let summary := Some (hkscs2001_uni2indx_page245, ((Z.shiftr wc 4) - 0x2450)) in
               hkscs2001_wctomb_j summary wc r
              else
               if ((wc >=? 0x24900) &&& (wc <? 0x24a20)) then
                let summary := Some (hkscs2001_uni2indx_page249, ((Z.shiftr wc 4) - 0x2490)) in
                hkscs2001_wctomb_j summary wc r
               else
                if ((wc >=? 0x25100) &&& (wc <? 0x251d0)) then
                 let summary := Some (hkscs2001_uni2indx_page251, ((Z.shiftr wc 4) - 0x2510)) in
                 hkscs2001_wctomb_j summary wc r
                else
                 hkscs2001_wctomb_j summary wc r
    else
     if ((wc >=? 0x25600) &&& (wc <? 0x256a0)) then
      let summary := Some (hkscs2001_uni2indx_page256, ((Z.shiftr wc 4) - 0x2560)) in
      hkscs2001_wctomb_j summary wc r
     else
      if ((wc >=? 0x25c00) &&& (wc <? 0x25d40)) then
       let summary := Some (hkscs2001_uni2indx_page25c, ((Z.shiftr wc 4) - 0x25c0)) in
       hkscs2001_wctomb_j summary wc r
      else
       if ((wc >=? 0x26b00) &&& (wc <? 0x26b20)) then
        let summary := Some (hkscs2001_uni2indx_page26b, ((Z.shiftr wc 4) - 0x26b0)) in
        hkscs2001_wctomb_j summary wc r
       else
        if ((wc >=? 0x26d00) &&& (wc <? 0x26d80)) then
         let summary := Some (hkscs2001_uni2indx_page26d, ((Z.shiftr wc 4) - 0x26d0)) in
         hkscs2001_wctomb_j summary wc r
        else
         if ((wc >=? 0x26f00) &&& (wc <? 0x26fc0)) then
          let summary := Some (hkscs2001_uni2indx_page26f, ((Z.shiftr wc 4) - 0x26f0)) in
          hkscs2001_wctomb_j summary wc r
         else
          if ((wc >=? 0x27100) &&& (wc <? 0x27110)) then
           let summary := Some (hkscs2001_uni2indx_page271, ((Z.shiftr wc 4) - 0x2710)) in
           hkscs2001_wctomb_j summary wc r
          else
           if ((wc >=? 0x28700) &&& (wc <? 0x28710)) then
            let summary := Some (hkscs2001_uni2indx_page287, ((Z.shiftr wc 4) - 0x2870)) in
            hkscs2001_wctomb_j summary wc r
           else
            if ((wc >=? 0x28900) &&& (wc <? 0x28af0)) then
             let summary := Some (hkscs2001_uni2indx_page289, ((Z.shiftr wc 4) - 0x2890)) in
             hkscs2001_wctomb_j summary wc r
            else
             if ((wc >=? 0x28d00) &&& (wc <? 0x28dc0)) then
              let summary := Some (hkscs2001_uni2indx_page28d, ((Z.shiftr wc 4) - 0x28d0)) in
              hkscs2001_wctomb_j summary wc r
             else
              if ((wc >=? 0x29900) &&& (wc <? 0x29950)) then
               let summary := Some (hkscs2001_uni2indx_page299, ((Z.shiftr wc 4) - 0x2990)) in
               hkscs2001_wctomb_j summary wc r
              else
               if ((wc >=? 0x29c00) &&& (wc <? 0x29c80)) then
                let summary := Some (hkscs2001_uni2indx_page29c, ((Z.shiftr wc 4) - 0x29c0)) in
                hkscs2001_wctomb_j summary wc r
               else
                if ((wc >=? 0x2a100) &&& (wc <? 0x2a2c0)) then
                 let summary := Some (hkscs2001_uni2indx_page2a1, ((Z.shiftr wc 4) - 0x2a10)) in
                 hkscs2001_wctomb_j summary wc r
                else
                 hkscs2001_wctomb_j summary wc r
  else
   Ok ((-2), r).

(* lib/converters/hkscs2004.h:83-117 hkscs2004_mbtowc *)
Definition hkscs2004_mbtowc_j (wc : Z) (pwc : option Z) : res (Z * option Z) :=
  if (negb (wc =? 0xfffd)) then
   let pwc := Some wc in
   Ok (2, pwc)
  else
   Ok ((-1), pwc).
(* lib/converters/hkscs2004.h:83-117 hkscs2004_mbtowc *)
Definition hkscs2004_mbtowc (s : list Z) (n : nat) : res (Z * option Z) :=
  let pwc := (None : option Z) in
  rd s 0%nat (fun c1 =>
  if ((c1 =? 0x87) ||| ((c1 >=? 0x8c) &&& (c1 <=? 0x8d))) then
   if (Nat.leb 2%nat n) then
    rd s 1%nat (fun c2 =>
    if (((c2 >=? 0x40) &&& (c2 <? 0x7f)) ||| ((c2 >=? 0xa1) &&& (c2 <? 0xff))) then
     let i := ((0x9d * (c1 - 0x80)) + (c2 - (if (c2 >=? 0xa1) then 0x62 else 0x40))) in
     let wc := 0xfffd in
     if (i <? 0x75c) then
      if (i <? 0x485) then
       tget hkscs2004_2uni_page87 (u32 (i - 0x44b)) (fun swc =>
       tget hkscs2004_2uni_upages (Z.shiftr swc 8) (fun x4 =>
       let wc := (Z.lor x4 (Z.land swc 0xff)) in
       hkscs2004_mbtowc_j wc pwc))
      else
       hkscs2004_mbtowc_j wc pwc
     else
      if (i <? 0x819) then
       tget hkscs2004_2uni_page8c (i - 0x75c) (fun swc =>
       tget hkscs2004_2uni_upages (Z.shiftr swc 8) (fun x6 =>
       let wc := (Z.lor x6 (Z.land swc 0xff)) in
       hkscs2004_mbtowc_j wc pwc))
      else
       hkscs2004_mbtowc_j wc pwc
    else
     Ok ((-1), pwc))
   else
    Ok ((-2), pwc)
  else
   Ok ((-1), pwc)).

(* lib/converters/hkscs2004.h:554-700 hkscs2004_wctomb *)
Definition hkscs2004_wctomb_j (summary : option (tab * Z)) (wc : Z) (r : wlog) : res (Z * wlog) :=
  if (negb (isnull summary)) then
   sget summary 1 (fun used =>
   let i := (Z.land wc 0xf) in
   if (negb ((Z.land used (Z.shiftl 1 i)) =? 0)) then
    let used := (Z.land used ((Z.shiftl 1 i) - 1)) in
    let used := ((Z.land used 0x5555) + (Z.shiftr (Z.land used 0xaaaa) 1)) in
    let used := ((Z.land used 0x3333) + (Z.shiftr (Z.land used 0xcccc) 2)) in
    let used := ((Z.land used 0xf0f) + (Z.shiftr (Z.land used 0xf0f0) 4)) in
    let used := ((Z.land used 0xff) + (Z.shiftr used 8)) in
    sget summary 0 (fun x2 =>
    tget hkscs2004_2charset (x2 + used) (fun c =>
    let r := wr r 0%nat (Z.shiftr c 8) in
    let r := wr r 1%nat (Z.land c 0xff) in
    Ok (2, r)))
   else
    Ok ((-1), r))
  else
   Ok ((-1), r).
(* lib/converters/hkscs2004.h:554-700 hkscs2004_wctomb *)
Definition hkscs2004_wctomb (wc : Z) (n : nat) : res (Z * wlog) :=
  let r := ([] : wlog) in
  if (Nat.leb 2%nat n) then
   let summary := (None : option (tab * Z)) in
   if (wc <? 0x21a00) then
    if (wc <? 0x6e00) then
     if ((wc >=? 0x3400) &&& (wc <? 0x3450)) then
      let summary := Some (hkscs2004_uni2indx_page34, ((Z.shiftr wc 4) - 0x340)) in
      hkscs2004_wctomb_j summary wc r
     else
      if ((wc >=? 0x3600) &&& (wc <? 0x3980)) then
       let summary := Some (hkscs2004_uni2indx_page36, ((Z.shiftr wc 4) - 0x360)) in
       hkscs2004_wctomb_j summary wc r
      else
       if ((wc >=? 0x3b00) &&& (wc <? 0x3ba0)) then
        let summary := Some (hkscs2004_uni2indx_page3b, ((Z.shiftr wc 4) - 0x3b0)) in
        hkscs2004_wctomb_j summary wc r
       else
        if ((wc >=? 0x3d00) &&& (wc <? 0x3e00)) then
         let summary := Some (hkscs2004_uni2indx_page3d, ((Z.shiftr wc 4) - 0x3d0)) in
         hkscs2004_wctomb_j summary wc r
        else
         if ((wc >=? 0x3f00) &&& (wc <? 0x41f0)) then
          let summary := Some (hkscs2004_uni2indx_page3f, ((Z.shiftr wc 4) - 0x3f0)) in
          hkscs2004_wctomb_j summary wc r
         else
          if ((wc >=? 0x4300) &&& (wc <? 0x4750)) then
           let summary := Some (hkscs2004_uni2indx_page43, ((Z.shiftr wc 4) - 0x430)) in
           hkscs2004_wctomb_j summary wc r
          else
           if ((wc >=? 0x4a00) &&& (wc <? 0x4ab0)) then
            let summary := Some (hkscs2004_uni2indx_page4a, ((Z.shiftr wc 4) - 0x4a0)) in
            hkscs2004_wctomb_j summary wc r
           else
            if ((wc >=? 0x4c00) &&& (wc <? 0x4d90)) then
             let summary := Some (hkscs2004_uni2indx_page4c, ((Z.shiftr wc 4) - 0x4c0)) in
             hkscs2004_wctomb_j summary wc r
            else
             if ((wc >=? 0x4f00) &&& (wc <? 0x4fc0)) then
              let summary := Some (hkscs2004_uni2indx_page4f, ((Z.shiftr wc 4) - 0x4f0)) in
              hkscs2004_wctomb_j summary wc r
             else
              if ((wc >=? 0x5600) &&& (wc <? 0x5700)) then
               let summary := Some (hkscs2004_uni2indx_page56, ((Z.shiftr wc 4) - 0x560)) in
               hkscs2004_wctomb_j summary wc r
              else
               if ((wc >=? 0x5900) &&& (wc <? 0x5d80)) then
                let summary := Some (hkscs2004_uni2indx_page59, ((Z.shiftr wc 4) - 0x590)) in
                hkscs2004_wctomb_j summary wc r
               else
                if ((wc >=? 0x5f00) &&& (wc <? 0x5f40)) then
                 let summary := Some (hkscs2004_uni2indx_page5f, ((Z.shiftr wc 4) - 0x5f0)) in
                 hkscs2004_wctomb_j summary wc r
                else
                 if ((wc >=? 0x6600) &&& (wc <? 0x6770)) then
                  let summary := Some (hkscs2004_uni2indx_page66, ((Z.shiftr wc 4) - 0x660)) in
                  hkscs2004_wctomb_j summary wc r
                 else
                  hkscs2004_wctomb_j summary wc r
    else
     if ((wc >=? 0x6e00) &&& (wc <? 0x6e60)) then
      let summary := Some (hkscs2004_uni2indx_page6e, ((Z.shiftr wc 4) - 0x6e0)) in
      hkscs2004_wctomb_j summary wc r
     else
      if ((wc >=? 0x7100) &&& (wc <? 0x7230)) then
       let summary := Some (hkscs2004_uni2indx_page71, ((Z.shiftr wc 4) - 0x710)) in
       hkscs2004_wctomb_j summary wc r
      else
       if ((wc >=? 0x7400) &&& (wc <? 0x74a0)) then
        let summary := Some (hkscs2004_uni2indx_page74, ((Z.shiftr wc 4) - 0x740)) in
        hkscs2004_wctomb_j summary wc r
       else
        if ((wc >=? 0x7900) &&& (wc <? 0x79d0)) then
         let summary := Some (hkscs2004_uni2indx_page79, ((Z.shiftr wc 4) - 0x790)) in
         hkscs2004_wctomb_j summary wc r
        else
         if ((wc >=? 0x7d00) &&& (wc <? 0x7da0)) then
          let summary := Some (hkscs2004_uni2indx_page7d, ((Z.shiftr wc 4) - 0x7d0)) in
          hkscs2004_wctomb_j summary wc r
         else
          if ((wc >=? 0x8100) &&& (wc <? 0x8170)) then
           let summary := Some (hkscs2004_uni2indx_page81, ((Z.shiftr wc 4) - 0x810)) in
           hkscs2004_wctomb_j summary wc r
          else
           if ((wc >=? 0x8500) &&& (wc <? 0x85a0)) then
            let summary := Some (hkscs2004_uni2indx_page85, ((Z.shiftr wc 4) - 0x850)) in
            hkscs2004_wctomb_j summary wc r
           else
            if ((wc >=? 0x8a00) &&& (wc <? 0x8b00)) then
             let summary := Some (hkscs2004_uni2indx_page8a, ((Z.shiftr wc 4) - 0x8a0)) in
             hkscs2004_wctomb_j summary wc r
            else
             if ((wc >=? 0x9700) &&& (wc <? 0x9860)) then
              let summary := Some (hkscs2004_uni2indx_page97, ((Z.shiftr wc 4) - 0x970)) in
              hkscs2004_wctomb_j summary wc r
             else
              if ((wc >=? 0x9f00) &&& (wc <? 0x9fc0)) then
               let summary := Some (hkscs2004_uni2indx_page9f, ((Z.shiftr wc 4) - 0x9f0)) in
               hkscs2004_wctomb_j summary wc r
              else
               if ((wc >=? 0x20100) &&& (wc <? 0x20240)) then
                let summary := Some (hkscs2004_uni2indx_page201, ((Z.shiftr wc 4) - 0x2010)) in
                hkscs2004_wctomb_j summary wc r
               else
                if ((wc >=? 0x20a00) &&& (wc <? 0x20ba0)) then
                 let summary := Some (hkscs2004_uni2indx_page20a, ((Z.shiftr wc 4) - 0x20a0)) in
                 hkscs2004_wctomb_j summary wc r
                else
                 hkscs2004_wctomb_j summary wc r
   else
    if (wc <? 0x26b00) then
     if ((wc >=? 0x21a00) &&& (wc <? 0x21a70)) then
      let summary := Some (hkscs2004_uni2indx_page21a, ((Z.shiftr wc 4) - 0x21a0)) in
      hkscs2004_wctomb_j summary wc r
     else
      if ((wc >=? 0x21d00) &&& (wc <? 0x21e30)) then
       let summary := Some (hkscs2004_uni2indx_page21d, ((Z.shiftr wc 4) - 0x21d0)) in
       hkscs2004_wctomb_j summary wc r
      else
       if ((wc >=? 0x22100) &&& (wc <? 0x221d0)) then
        let summary := Some (hkscs2004_uni2indx_page221, ((Z.shiftr wc 4) - 0x2210)) in
        hkscs2004_wctomb_j summary wc r
       else
        if ((wc >=? 0x22700) &&& (wc <? 0x227a0)) then
         let summary := Some (hkscs2004_uni2indx_page227, ((Z.shiftr wc 4) - 0x2270)) in
         hkscs2004_wctomb_j summary wc r
        else
         if ((wc >=? 0x23200) &&& (wc <? 0x23260)) then
          let summary := Some (hkscs2004_uni2indx_page232, ((Z.shiftr wc 4) - 0x2320)) in
          hkscs2004_wctomb_j summary wc r
         else
          if ((wc >=? 0x23500) &&& (wc <? 0x23620)) then
           let summary := Some (hkscs2004_uni2indx_page235, ((Z.shiftr wc 4) - 0x2350)) in
           hkscs2004_wctomb_j summary wc r
          else
           if ((wc >=? 0x23b00) &&& (wc <? 0x23b20)) then
            let summary := Some (hkscs2004_uni2indx_page23b, ((Z.shiftr wc 4) - 0x23b0)) in
            hkscs2004_wctomb_j summary wc r
           else
            if ((wc >=? 0x23e00) &&& (wc <? 0x240f0)) then
             let summary := Some (hkscs2004_uni2indx_page23e, ((Z.shiftr wc 4) - 0x23e0)) in
             hkscs2004_wctomb_j summary wc r
            else
             if ((wc >=? 0x24200) &&& (wc <? 0x242c0)) then
              let summary := Some (hkscs2004_uni2indx_page242, ((Z.shiftr wc 4) - 0x2420)) in
              hkscs2004_wctomb_j summary wc r
             else
              if ((wc >=? 0x24b00) &&& (wc <? 0x24b10)) then
               let summary := Some (hkscs2004_uni2indx_page24b, ((Z.shiftr wc 4) - 0x24b0)) in
               hkscs2004_wctomb_j summary wc r
              else
               if ((wc >=? 0x25400) &&& (wc <? 0x254a0)) then
                let summary := Some (hkscs2004_uni2indx_page254, ((Z.shiftr wc 4) - 0x2540)) in
                hkscs2004_wctomb_j summary wc r
               else
                if ((wc >=? 0x25a00) &&& (wc <? 0x25a60)) then
                 let summary := Some (hkscs2004_uni2indx_page25a, ((Z.shiftr wc 4) - 0x25a0)) in
                 hkscs2004_wctomb_j summary wc r
                else
                 hkscs2004_wctomb_j summary wc r
    else
     if ((wc >=? 0x26b00) &&& (wc <? 0x26c50)) then
      let summary := Some (hkscs2004_uni2indx_page26b, ((Z.shiftr wc 4) - 0x26b0)) in
      hkscs2004_wctomb_j summary wc r
     else
      if ((wc >=? 0x26e00) &&& (wc <? 0x26e90)) then
       let summary := Some (hkscs2004_uni2indx_page26e, ((Z.shiftr wc 4) - 0x26e0)) in
       hkscs2004_wctomb_j summary wc r
      else
       if ((wc >=? 0x27000) &&& (wc <? 0x270e0)) then
        let summary := Some (hkscs2004_uni2indx_page270, ((Z.shiftr wc 4) - 0x2700)) in
        hkscs2004_wctomb_j summary wc r
       else
        if ((wc >=? 0x27200) &&& (wc <? 0x27400)) then
         let summary := Some (hkscs2004_uni2indx_page272, ((Z.shiftr wc 4) - 0x2720)) in
         hkscs2004_wctomb_j summary wc r
        else
         if ((wc >=? 0x27b00) &&& (wc <? 0x27cd0)) then
          let summary := Some (hkscs2004_uni2indx_page27b, ((Z.shiftr wc 4) - 0x27b0)) in
          hkscs2004_wctomb_j summary wc r
         else
          if ((wc >=? 0x28600) &&& (wc <? 0x286c0)) then
           let summary := Some (hkscs2004_uni2indx_page286, ((Z.shiftr wc 4) - 0x2860)) in
           hkscs2004_wctomb_j summary wc r
          else
           if ((wc >=? 0x28900) &&& (wc <? 0x28970)) then
            let summary := Some (hkscs2004_uni2indx_page289, ((Z.shiftr wc 4) - 0x2890)) in
            hkscs2004_wctomb_j summary wc r
           else
            if ((wc >=? 0x28b00) &&& (wc <? 0x28bc0)) then
             let summary := Some (hkscs2004_uni2indx_page28b, ((Z.shiftr wc 4) - 0x28b0)) in
             hkscs2004_wctomb_j summary wc r
            else
             if ((wc >=? 0x29000) &&& (wc <? 0x29080)) then
              let summary := Some (hkscs2004_uni2indx_page290, ((Z.shiftr wc 4) - 0x2900)) in
              hkscs2004_wctomb_j summary wc r
             else
              if ((wc >=? 0x29800) &&& (wc <? 0x29950)) then
               let summary := Some (hkscs2004_uni2indx_page298, ((Z.shiftr wc 4) - 0x2980)) in
               hkscs2004_wctomb_j summary wc r
              else
               if ((wc >=? 0x29e00) &&& (wc <? 0x29ec0)) then
                let summary := Some (hkscs2004_uni2indx_page29e, ((Z.shiftr wc 4) - 0x29e0)) in
                hkscs2004_wctomb_j summary wc r
               else
                if ((wc >=? 0x2a100) &&& (wc <? 0x2a1c0)) then
                 let summary := Some (hkscs2004_uni2indx_page2a1, ((Z.shiftr wc 4) - 0x2a10)) in
                 hkscs2004_wctomb_j summary wc r
                else
                 if ((wc >=? 0x2a300) &&& (wc <? 0x2a360)) then
                  let summary := Some (hkscs2004_uni2indx_page2a3, ((Z.shiftr wc 4) - 0x2a30)) in
                  hkscs2004_wctomb_j summary wc r
                 else
                  hkscs2004_wctomb_j summary wc r
  else
   Ok ((-2), r).

(* lib/converters/hkscs2008.h:60-88 hkscs2008_mbtowc *)
Definition hkscs2008_mbtowc_j (wc : Z) (pwc : option Z) : res (Z * option Z) :=
  if (negb (wc =? 0xfffd)) then
   let pwc := Some wc in
   Ok (2, pwc)
  else
   Ok ((-1), pwc).
(* lib/converters/hkscs2008.h:60-88 hkscs2008_mbtowc *)
Definition hkscs2008_mbtowc (s : list Z) (n : nat) : res (Z * option Z) :=
  let pwc := (None : option Z) in
  rd s 0%nat (fun c1 =>
  if (c1 =? 0x87) then
   if (Nat.leb 2%nat n) then
    rd s 1%nat (fun c2 =>
    if (((c2 >=? 0x40) &&& (c2 <? 0x7f)) ||| ((c2 >=? 0xa1) &&& (c2 <? 0xff))) then
     let i := ((0x9d * (c1 - 0x80)) + (c2 - (if (c2 >=? 0xa1) then 0x62 else 0x40))) in
     let wc := 0xfffd in
     if (i <? 0x4c9) then
      tget hkscs2008_2uni_page87 (u32 (i - 0x44b)) (fun swc =>
      tget hkscs2008_2uni_upages (Z.shiftr swc 8) (fun x4 =>
      let wc := (Z.lor x4 (Z.land swc 0xff)) in
      hkscs2008_mbtowc_j wc pwc))
     else
      hkscs2008_mbtowc_j wc pwc
    else
     Ok ((-1), pwc))
   else
    Ok ((-2), pwc)
  else
   Ok ((-1), pwc)).

(* lib/converters/hkscs2008.h:373-477 hkscs2008_wctomb *)
Definition hkscs2008_wctomb_j (summary : option (tab * Z)) (wc : Z) (r : wlog) : res (Z * wlog) :=
  if (negb (isnull summary)) then
   sget summary 1 (fun used =>
   let i := (Z.land wc 0xf) in
   if (negb ((Z.land used (Z.shiftl 1 i)) =? 0)) then
    let used := (Z.land used ((Z.shiftl 1 i) - 1)) in
    let used := ((Z.land used 0x5555) + (Z.shiftr (Z.land used 0xaaaa) 1)) in
    let used := ((Z.land used 0x3333) + (Z.shiftr (Z.land used 0xcccc) 2)) in
    let used := ((Z.land used 0xf0f) + (Z.shiftr (Z.land used 0xf0f0) 4)) in
    let used := ((Z.land used 0xff) + (Z.shiftr used 8)) in
    sget summary 0 (fun x2 =>
    tget hkscs2008_2charset (x2 + used) (fun c =>
    let r := wr r 0%nat (Z.shiftr c 8) in
    let r := wr r 1%nat (Z.land c 0xff) in
    Ok (2, r)))
   else
    Ok ((-1), r))
  else
   Ok ((-1), r).
(* lib/converters/hkscs2008.h:373-477 hkscs2008_wctomb *)
Definition hkscs2008_wctomb (wc : Z) (n : nat) : res (Z * wlog) :=
  let r := ([] : wlog) in
  if (Nat.leb 2%nat n) then
   let summary := (None : option (tab * Z)) in
   if ((wc >=? 0x3400) &&& (wc <? 0x34f0)) then
    let summary := Some (hkscs2008_uni2indx_page34, ((Z.shiftr wc 4) - 0x340)) in
    hkscs2008_wctomb_j summary wc r
   else
    if ((wc >=? 0x3800) &&& (wc <? 0x3880)) then
     let summary := Some (hkscs2008_uni2indx_page38, ((Z.shiftr wc 4) - 0x380)) in
     hkscs2008_wctomb_j summary wc r
    else
     if ((wc >=? 0x3a00) &&& (wc <? 0x3b00)) then
      let summary := Some (hkscs2008_uni2indx_page3a, ((Z.shiftr wc 4) - 0x3a0)) in
      hkscs2008_wctomb_j summary wc r
     else
      if ((wc >=? 0x3e00) &&& (wc <? 0x3ef0)) then
       let summary := Some (hkscs2008_uni2indx_page3e, ((Z.shiftr wc 4) - 0x3e0)) in
       hkscs2008_wctomb_j summary wc r
      else
       if ((wc >=? 0x4000) &&& (wc <? 0x4190)) then
        let summary := Some (hkscs2008_uni2indx_page40, ((Z.shiftr wc 4) - 0x400)) in
        hkscs2008_wctomb_j summary wc r
       else
        if ((wc >=? 0x4300) &&& (wc <? 0x44f0)) then
         let summary := Some (hkscs2008_uni2indx_page43, ((Z.shiftr wc 4) - 0x430)) in
         hkscs2008_wctomb_j summary wc r
        else
         if ((wc >=? 0x4600) &&& (wc <? 0x46b0)) then
          let summary := Some (hkscs2008_uni2indx_page46, ((Z.shiftr wc 4) - 0x460)) in
          hkscs2008_wctomb_j summary wc r
         else
          if ((wc >=? 0x4900) &&& (wc <? 0x4940)) then
           let summary := Some (hkscs2008_uni2indx_page49, ((Z.shiftr wc 4) - 0x490)) in
           hkscs2008_wctomb_j summary wc r
          else
           if ((wc >=? 0x5200) &&& (wc <? 0x5250)) then
            let summary := Some (hkscs2008_uni2indx_page52, ((Z.shiftr wc 4) - 0x520)) in
            hkscs2008_wctomb_j summary wc r
           else
            if ((wc >=? 0x5400) &&& (wc <? 0x5450)) then
             let summary := Some (hkscs2008_uni2indx_page54, ((Z.shiftr wc 4) - 0x540)) in
             hkscs2008_wctomb_j summary wc r
            else
             if ((wc >=? 0x5700) &&& (wc <? 0x58a0)) then
              let summary := Some (hkscs2008_uni2indx_page57, ((Z.shiftr wc 4) - 0x570)) in
              hkscs2008_wctomb_j summary wc r
             else
              if ((wc >=? 0x6200) &&& (wc <? 0x62d0)) then
               let summary := Some (hkscs2008_uni2indx_page62, ((Z.shiftr wc 4) - 0x620)) in
               hkscs2008_wctomb_j summary wc r
              else
               if ((wc >=? 0x6600) &&& (wc <? 0x6790)) then
                let summary := Some (hkscs2008_uni2indx_page66, ((Z.shiftr wc 4) - 0x660)) in
                hkscs2008_wctomb_j summary wc r
               else
                if ((wc >=? 0x6a00) &&& (wc <? 0x6a30)) then
                 let summary := Some (hkscs2008_uni2indx_page6a, ((Z.shiftr wc 4) - 0x6a0)) in
                 hkscs2008_wctomb_j summary wc r
                else
                 if ((wc >=? 0x7000) &&& (wc <? 0x7070)) then
                  let summary := Some (hkscs2008_uni2indx_page70, ((Z.shiftr wc 4) - 0x700)) in
                  hkscs2008_wctomb_j summary wc r
                 else
                  if ((wc >=? 0x7300) &&& (wc <? 0x74d0)) then
                   let summary := Some (hkscs2008_uni2indx_page73, ((Z.shiftr wc 4) - 0x730)) in
                   hkscs2008_wctomb_j summary wc r
                  else
                   if ((wc >=? 0x7900) &&& (wc <? 0x7bd0)) then
                    let summary := Some (hkscs2008_uni2indx_page79, ((Z.shiftr wc 4) - 0x790)) in
                    hkscs2008_wctomb_j summary wc r
                   else
                    if ((wc >=? 0x8400) &&& (wc <? 0x8620)) then
                     let summary := Some (hkscs2008_uni2indx_page84, ((Z.shiftr wc 4) - 0x840)) in
                     hkscs2008_wctomb_j summary wc r
                    else
                     if ((wc >=? 0x8800) &&& (wc <? 0x88a0)) then
                      let summary := Some (hkscs2008_uni2indx_page88, ((Z.shiftr wc 4) - 0x880)) in
                      hkscs2008_wctomb_j summary wc r
                     else
                      if ((wc >=? 0x8b00) &&& (wc <? 0x8b90)) then
                       let summary := Some (hkscs2008_uni2indx_page8b, ((Z.shiftr wc 4) - 0x8b0)) in
                       hkscs2008_wctomb_j summary wc r
                      else
                       if ((wc >=? 0x9000) &&& (wc <? 0x9050)) then
                        let summary := Some (hkscs2008_uni2indx_page90, ((Z.shiftr wc 4) - 0x900)) in
                        hkscs2008_wctomb_j summary wc r
                       else
                        if ((wc >=? 0x9200) &&& (wc <? 0x9220)) then
                         let summary := Some (hkscs2008_uni2indx_page92, ((Z.shiftr wc 4) - 0x920)) in
                         hkscs2008_wctomb_j summary wc r
                        else
                         if ((wc >=? 0x9400) &&& (wc <? 0x9430)) then
                          let summary := Some (hkscs2008_uni2indx_page94, ((Z.shiftr wc 4) - 0x940)) in
                          hkscs2008_wctomb_j summary wc r
                         else
                          if ((wc >=? 0x9700) &&& (wc <? 0x9750)) then
                           let summary := Some (hkscs2008_uni2indx_page97, ((Z.shiftr wc 4) - 0x970)) in
                           hkscs2008_wctomb_j summary wc r
                          else
                           if ((wc >=? 0x9f00) &&& (wc <? 0x9fd0)) then
                            let summary := Some (hkscs2008_uni2indx_page9f, ((Z.shiftr wc 4) - 0x9f0)) in
                            hkscs2008_wctomb_j summary wc r
                           else
                            if ((wc >=? 0x20a00) &&& (wc <? 0x20a90)) then
                             let summary := Some (hkscs2008_uni2indx_page20a, ((Z.shiftr wc 4) - 0x20a0)) in
                             hkscs2008_wctomb_j summary wc r
                            else
                             if ((wc >=? 0x21d00) &&& (wc <? 0x21d60)) then
                              let summary := Some (hkscs2008_uni2indx_page21d, ((Z.shiftr wc 4) - 0x21d0)) in
                              hkscs2008_wctomb_j summary wc r
                             else
                              if ((wc >=? 0x22400) &&& (wc <? 0x224d0)) then
                               let summary := Some (hkscs2008_uni2indx_page224, ((Z.shiftr wc 4) - 0x2240)) in
                               hkscs2008_wctomb_j summary wc r
                              else
                               if ((wc >=? 0x23100) &&& (wc <? 0x23260)) then
                                let summary := Some (hkscs2008_uni2indx_page231, ((Z.shiftr wc 4) - 0x2310)) in
                                hkscs2008_wctomb_j summary wc r
                               else
                                if ((wc >=? 0x23500) &&& (wc <? 0x236a0)) then
                                 let summary := Some (hkscs2008_uni2indx_page235, ((Z.shiftr wc 4) - 0x2350)) in
                                 hkscs2008_wctomb_j summary wc r
                                else
                                 if ((wc >=? 0x24100) &&& (wc <? 0x24170)) then
                                  let summary := Some (hkscs2008_uni2indx_page241, ((Z.shiftr wc 4) - 0x2410)) in
                                  hkscs2008_wctomb_j summary wc r
                                 else
                                  if ((wc >=? 0x25800) &&& (wc <? 0x258e0)) then
                                   let summary := Some (hkscs2008_uni2indx_page258, ((Z.shiftr wc 4) - 0x2580)) in
                                   hkscs2008_wctomb_j summary wc r
                                  else
                                   if ((wc >=? 0x25d00) &&& (wc <? 0x25dc0)) then
                                    let summary := Some (hkscs2008_uni2indx_page25d, ((Z.shiftr wc 4) - 0x25d0)) in
                                    hkscs2008_wctomb_j summary wc r
                                   else
                                    if ((wc >=? 0x26000) &&& (wc <? 0x26030)) then
                                     let summary := Some (hkscs2008_uni2indx_page260, ((Z.shiftr wc 4) - 0x2600)) in
                                     hkscs2008_wctomb_j summary wc r
                                    else
                                     if ((wc >=? 0x26e00) &&& (wc <? 0x26e90)) then
                                      let summary := Some (hkscs2008_uni2indx_page26e, ((Z.shiftr wc 4) - 0x26e0)) in
                                      hkscs2008_wctomb_j summary wc r
                                     else
                                      if ((wc >=? 0x27b00) &&& (wc <? 0x27b70)) then
                                       let summary := Some (hkscs2008_uni2indx_page27b, ((Z.shiftr wc 4) - 0x27b0)) in
                                       hkscs2008_wctomb_j summary wc r
                                      else
                                       if ((wc >=? 0x28900) &&& (wc <? 0x28910)) then
                                        let summary := Some (hkscs2008_uni2indx_page289, ((Z.shiftr wc 4) - 0x2890)) in
                                        hkscs2008_wctomb_j summary wc r
                                       else
                                        if ((wc >=? 0x2ad00) &&& (wc <? 0x2ae00)) then
                                         let summary := Some (hkscs2008_uni2indx_page2ad, ((Z.shiftr wc 4) - 0x2ad0)) in
                                         hkscs2008_wctomb_j summary wc r
                                        else
                                         hkscs2008_wctomb_j summary wc r
  else
   Ok ((-2), r).

(* lib/converters/cp950ext.h:40-67 cp950ext_mbtowc *)
Definition cp950ext_mbtowc_j (wc : Z) (pwc : option Z) : res (Z * option Z) :=
  if (negb (wc =? 0xfffd)) then
   let pwc := Some wc in
   Ok (2, pwc)
  else
   Ok ((-1), pwc).
(* lib/converters/cp950ext.h:40-67 cp950ext_mbtowc *)
Definition cp950ext_mbtowc (s : list Z) (n : nat) : res (Z * option Z) :=
  let pwc := (None : option Z) in
  rd s 0%nat (fun c1 =>
  if (c1 =? 0xf9) then
   if (Nat.leb 2%nat n) then
    rd s 1%nat (fun c2 =>
    if (((c2 >=? 0x40) &&& (c2 <? 0x7f)) ||| ((c2 >=? 0xa1) &&& (c2 <? 0xff))) then
     let i := ((0x9d * (c1 - 0xa1)) + (c2 - (if (c2 >=? 0xa1) then 0x62 else 0x40))) in
     let wc := 0xfffd in
     if ((i >=? 0x366c) &&& (i <? 0x3695)) then
      tget cp950ext_2uni_pagef9 (i - 0x366c) (fun wc =>
      cp950ext_mbtowc_j wc pwc)
     else
      cp950ext_mbtowc_j wc pwc
    else
     Ok ((-1), pwc))
   else
    Ok ((-2), pwc)
  else
   Ok ((-1), pwc)).

(* lib/converters/cp950ext.h:128-172 cp950ext_wctomb *)
Definition cp950ext_wctomb_j (summary : option (tab * Z)) (wc : Z) (r : wlog) : res (Z * wlog) :=
  if (negb (isnull summary)) then
   sget summary 1 (fun used =>
   let i := (Z.land wc 0xf) in
   if (negb ((Z.land used (Z.shiftl 1 i)) =? 0)) then
    let used := (Z.land used ((Z.shiftl 1 i) - 1)) in
    let used := ((Z.land used 0x5555) + (Z.shiftr (Z.land used 0xaaaa) 1)) in
    let used := ((Z.land used 0x3333) + (Z.shiftr (Z.land used 0xcccc) 2)) in
    let used := ((Z.land used 0xf0f) + (Z.shiftr (Z.land used 0xf0f0) 4)) in
    let used := ((Z.land used 0xff) + (Z.shiftr used 8)) in
    sget summary 0 (fun x2 =>
    tget cp950ext_2charset (x2 + used) (fun c =>
    let r := wr r 0%nat (Z.shiftr c 8) in
    let r := wr r 1%nat (Z.land c 0xff) in
    Ok (2, r)))
   else
    Ok ((-1), r))
  else
   Ok ((-1), r).
(* lib/converters/cp950ext.h:128-172 cp950ext_wctomb *)
Definition cp950ext_wctomb (wc : Z) (n : nat) : res (Z * wlog) :=
  let r := ([] : wlog) in
  if (Nat.leb 2%nat n) then
   let summary := (None : option (tab * Z)) in
   if ((wc >=? 0x2500) &&& (wc <? 0x25a0)) then
    let summary := Some (cp950ext_uni2indx_page25, ((Z.shiftr wc 4) - 0x250)) in
    cp950ext_wctomb_j summary wc r
   else
    if ((wc >=? 0x5800) &&& (wc <? 0x58c0)) then
     let summary := Some (cp950ext_uni2indx_page58, ((Z.shiftr wc 4) - 0x580)) in
     cp950ext_wctomb_j summary wc r
    else
     if ((wc >=? 0x5a00) &&& (wc <? 0x5b00)) then
      let summary := Some (cp950ext_uni2indx_page5a, ((Z.shiftr wc 4) - 0x5a0)) in
      cp950ext_wctomb_j summary wc r
     else
      if ((wc >=? 0x6000) &&& (wc <? 0x6060)) then
       let summary := Some (cp950ext_uni2indx_page60, ((Z.shiftr wc 4) - 0x600)) in
       cp950ext_wctomb_j summary wc r
      else
       if ((wc >=? 0x7800) &&& (wc <? 0x7890)) then
        let summary := Some (cp950ext_uni2indx_page78, ((Z.shiftr wc 4) - 0x780)) in
        cp950ext_wctomb_j summary wc r
       else
        if ((wc >=? 0x7c00) &&& (wc <? 0x7cb0)) then
         let summary := Some (cp950ext_uni2indx_page7c, ((Z.shiftr wc 4) - 0x7c0)) in
         cp950ext_wctomb_j summary wc r
        else
         if ((wc >=? 0x8800) &&& (wc <? 0x88d0)) then
          let summary := Some (cp950ext_uni2indx_page88, ((Z.shiftr wc 4) - 0x880)) in
          cp950ext_wctomb_j summary wc r
         else
          if ((wc >=? 0x9200) &&& (wc <? 0x92c0)) then
           let summary := Some (cp950ext_uni2indx_page92, ((Z.shiftr wc 4) - 0x920)) in
           cp950ext_wctomb_j summary wc r
          else
           cp950ext_wctomb_j summary wc r
  else
   Ok ((-2), r).

(* lib/converters/gb18030ext.h:67-169 gb18030_2005_ext_mbtowc *)
Definition gb18030_2005_ext_mbtowc_j (wc : Z) (pwc : option Z) : res (Z * option Z) :=
  if (negb (wc =? 0xfffd)) then
   let pwc := Some wc in
   Ok (2, pwc)
  else
   Ok ((-1), pwc).
(* lib/converters/gb18030ext.h:67-169 gb18030_2005_ext_mbtowc *)
Definition gb18030_2005_ext_mbtowc (s : list Z) (n : nat) : res (Z * option Z) :=
  let pwc := (None : option Z) in
  rd s 0%nat (fun c1 =>
  if ((((c1 =? 0xa2) ||| ((c1 >=? 0xa4) &&& (c1 <=? 0xa9))) ||| (c1 =? 0xd7)) ||| (c1 =? 0xfe)) then
   if (Nat.leb 2%nat n) then
    rd s 1%nat (fun c2 =>
    if (((c2 >=? 0x40) &&& (c2 <? 0x7f)) ||| ((c2 >=? 0x80) &&& (c2 <? 0xff))) then
     let i := ((0xbe * (c1 - 0x81)) + (c2 - (if (c2 >=? 0x80) then 0x41 else 0x40))) in
     let wc := 0xfffd in
     let x3 := c1 in
     if (x3 =? 0xa2) then
      if ((i >=? 0x18e8) &&& (i <=? 0x18ed)) then
       let wc := (0xe766 + (i - 0x18e8)) in
       gb18030_2005_ext_mbtowc_j wc pwc
      else
       if (i =? 0x1920) then
        let wc := 0x20ac in
        gb18030_2005_ext_mbtowc_j wc pwc
       else
        if (i =? 0x1921) then
         let wc := 0xe76d in
         gb18030_2005_ext_mbtowc_j wc pwc
        else
         if ((i >=? 0x192c) &&& (i <=? 0x192d)) then
          let wc := (0xe76e + (i - 0x192c)) in
          gb18030_2005_ext_mbtowc_j wc pwc
         else
          if ((i >=? 0x193a) &&& (i <=? 0x193b)) then
           let wc := (0xe770 + (i - 0x193a)) in
           gb18030_2005_ext_mbtowc_j wc pwc
          else
           gb18030_2005_ext_mbtowc_j wc pwc
     else
      if (x3 =? 0xa4) then
       if ((i >=? 0x1aad) &&& (i <=? 0x1ab7)) then
        let wc := (0xe772 + (i - 0x1aad)) in
        gb18030_2005_ext_mbtowc_j wc pwc
       else
        gb18030_2005_ext_mbtowc_j wc pwc
      else
       if (x3 =? 0xa5) then
        if ((i >=? 0x1b6e) &&& (i <=? 0x1b75)) then
         let wc := (0xe77d + (i - 0x1b6e)) in
         gb18030_2005_ext_mbtowc_j wc pwc
        else
         gb18030_2005_ext_mbtowc_j wc pwc
       else
        if (x3 =? 0xa6) then
         if ((i >=? 0x1bee) &&& (i <=? 0x1bf5)) then
          let wc := (0xe785 + (i - 0x1bee)) in
          gb18030_2005_ext_mbtowc_j wc pwc
         else
          if ((i >=? 0x1c0f) &&& (i <=? 0x1c10)) then
           let wc := (0xfe12 - (i - 0x1c0f)) in
           gb18030_2005_ext_mbtowc_j wc pwc
          else
           if ((i >=? 0x1c0e) &&& (i <=? 0x1c16)) then
            let wc := (0xfe10 + (i - 0x1c0e)) in
            gb18030_2005_ext_mbtowc_j wc pwc
           else
            if ((i >=? 0x1c21) &&& (i <=? 0x1c22)) then
             let wc := (0xfe17 + (i - 0x1c21)) in
             gb18030_2005_ext_mbtowc_j wc pwc
            else
             if (i =? 0x1c28) then
              let wc := 0xfe19 in
              gb18030_2005_ext_mbtowc_j wc pwc
             else
              if ((i >=? 0x1c2b) &&& (i <=? 0x1c33)) then
               let wc := (0xe797 + (i - 0x1c2b)) in
               gb18030_2005_ext_mbtowc_j wc pwc
              else
               gb18030_2005_ext_mbtowc_j wc pwc
        else
         if (x3 =? 0xa7) then
          if ((i >=? 0x1cb5) &&& (i <=? 0x1cc3)) then
           let wc := (0xe7a0 + (i - 0x1cb5)) in
           gb18030_2005_ext_mbtowc_j wc pwc
          else
           if ((i >=? 0x1ce5) &&& (i <=? 0x1cf1)) then
            let wc := (0xe7af + (i - 0x1ce5)) in
            gb18030_2005_ext_mbtowc_j wc pwc
           else
            gb18030_2005_ext_mbtowc_j wc pwc
         else
          if (x3 =? 0xa8) then
           if ((i >=? 0x1d47) &&& (i <=? 0x1d51)) then
            let wc := (0xe7bc + (i - 0x1d47)) in
            gb18030_2005_ext_mbtowc_j wc pwc
           else
            if (i =? 0x1d6d) then
             let wc := 0x1e3f in
             gb18030_2005_ext_mbtowc_j wc pwc
            else
             if (i =? 0x1d70) then
              let wc := 0x1f9 in
              gb18030_2005_ext_mbtowc_j wc pwc
             else
              if ((i >=? 0x1d72) &&& (i <=? 0x1d75)) then
               let wc := (0xe7c9 + (i - 0x1d72)) in
               gb18030_2005_ext_mbtowc_j wc pwc
              else
               if ((i >=? 0x1d9b) &&& (i <=? 0x1daf)) then
                let wc := (0xe7cd + (i - 0x1d9b)) in
                gb18030_2005_ext_mbtowc_j wc pwc
               else
                gb18030_2005_ext_mbtowc_j wc pwc
          else
           if (x3 =? 0xa9) then
            if (i =? 0x1dc8) then
             let wc := 0xe7e2 in
             gb18030_2005_ext_mbtowc_j wc pwc
            else
             if (i =? 0x1dcb) then
              let wc := 0xe7e3 in
              gb18030_2005_ext_mbtowc_j wc pwc
             else
              if ((i >=? 0x1dcd) &&& (i <=? 0x1dcf)) then
               let wc := (0xe7e4 + (i - 0x1dcd)) in
               gb18030_2005_ext_mbtowc_j wc pwc
              else
               if ((i >=? 0x1df8) &&& (i <? 0x1e05)) then
                tget gb18030ext_2uni_pagea9 (i - 0x1df8) (fun x4 =>
                let wc := x4 in
                gb18030_2005_ext_mbtowc_j wc pwc)
               else
                if ((i >=? 0x1e06) &&& (i <=? 0x1e12)) then
                 let wc := (0xe7f4 + (i - 0x1e06)) in
                 gb18030_2005_ext_mbtowc_j wc pwc
                else
                 if ((i >=? 0x1e5f) &&& (i <=? 0x1e6d)) then
                  let wc := (0xe801 + (i - 0x1e5f)) in
                  gb18030_2005_ext_mbtowc_j wc pwc
                 else
                  gb18030_2005_ext_mbtowc_j wc pwc
           else
            if (x3 =? 0xd7) then
             if ((i >=? 0x408d) &&& (i <=? 0x4091)) then
              let wc := (0xe810 + (i - 0x408d)) in
              gb18030_2005_ext_mbtowc_j wc pwc
             else
              gb18030_2005_ext_mbtowc_j wc pwc
            else
             if (x3 =? 0xfe) then
              if (i <? 0x5d26) then
               tget gb18030_2005_ext_2uni_pagefe (u32 (i - 0x5cc6)) (fun wc =>
               gb18030_2005_ext_mbtowc_j wc pwc)
              else
               gb18030_2005_ext_mbtowc_j wc pwc
             else
              gb18030_2005_ext_mbtowc_j wc pwc
    else
     Ok ((-1), pwc))
   else
    Ok ((-2), pwc)
  else
   Ok ((-1), pwc)).

(* lib/converters/gb18030ext.h:171-273 gb18030_2022_ext_mbtowc *)
Definition gb18030_2022_ext_mbtowc_j (wc : Z) (pwc : option Z) : res (Z * option Z) :=
  if (negb (wc =? 0xfffd)) then
   let pwc := Some wc in
   Ok (2, pwc)
  else
   Ok ((-1), pwc).
(* lib/converters/gb18030ext.h:171-273 gb18030_2022_ext_mbtowc *)
Definition gb18030_2022_ext_mbtowc (s : list Z) (n : nat) : res (Z * option Z) :=
  let pwc := (None : option Z) in
  rd s 0%nat (fun c1 =>
  if ((((c1 =? 0xa2) ||| ((c1 >=? 0xa4) &&& (c1 <=? 0xa9))) ||| (c1 =? 0xd7)) ||| (c1 =? 0xfe)) then
   if (Nat.leb 2%nat n) then
    rd s 1%nat (fun c2 =>
    if (((c2 >=? 0x40) &&& (c2 <? 0x7f)) ||| ((c2 >=? 0x80) &&& (c2 <? 0xff))) then
     let i := ((0xbe * (c1 - 0x81)) + (c2 - (if (c2 >=? 0x80) then 0x41 else 0x40))) in
     let wc := 0xfffd in
     let x3 := c1 in
     if (x3 =? 0xa2) then
      if ((i >=? 0x18e8) &&& (i <=? 0x18ed)) then
       let wc := (0xe766 + (i - 0x18e8)) in
       gb18030_2022_ext_mbtowc_j wc pwc
      else
       if (i =? 0x1920) then
        let wc := 0x20ac in
        gb18030_2022_ext_mbtowc_j wc pwc
       else
        if (i =? 0x1921) then
         let wc := 0xe76d in
         gb18030_2022_ext_mbtowc_j wc pwc
        else
         if ((i >=? 0x192c) &&& (i <=? 0x192d)) then
          let wc := (0xe76e + (i - 0x192c)) in
          gb18030_2022_ext_mbtowc_j wc pwc
         else
          if ((i >=? 0x193a) &&& (i <=? 0x193b)) then
           let wc := (0xe770 + (i - 0x193a)) in
           gb18030_2022_ext_mbtowc_j wc pwc
          else
           gb18030_2022_ext_mbtowc_j wc pwc
     else
      if (x3 =? 0xa4) then
       if ((i >=? 0x1aad) &&& (i <=? 0x1ab7)) then
        let wc := (0xe772 + (i - 0x1aad)) in
        gb18030_2022_ext_mbtowc_j wc pwc
       else
        gb18030_2022_ext_mbtowc_j wc pwc
      else
       if (x3 =? 0xa5) then
        if ((i >=? 0x1b6e) &&& (i <=? 0x1b75)) then
         let wc := (0xe77d + (i - 0x1b6e)) in
         gb18030_2022_ext_mbtowc_j wc pwc
        else
         gb18030_2022_ext_mbtowc_j wc pwc
       else
        if (x3 =? 0xa6) then
         if ((i >=? 0x1bee) &&& (i <=? 0x1bf5)) then
          let wc := (0xe785 + (i - 0x1bee)) in
          gb18030_2022_ext_mbtowc_j wc pwc
         else
          if ((i >=? 0x1c0f) &&& (i <=? 0x1c10)) then
           let wc := (0xfe12 - (i - 0x1c0f)) in
           gb18030_2022_ext_mbtowc_j wc pwc
          else
           if ((i >=? 0x1c0e) &&& (i <=? 0x1c16)) then
            let wc := (0xfe10 + (i - 0x1c0e)) in
            gb18030_2022_ext_mbtowc_j wc pwc
           else
            if ((i >=? 0x1c21) &&& (i <=? 0x1c22)) then
             let wc := (0xfe17 + (i - 0x1c21)) in
             gb18030_2022_ext_mbtowc_j wc pwc
            else
             if (i =? 0x1c28) then
              let wc := 0xfe19 in
              gb18030_2022_ext_mbtowc_j wc pwc
             else
              if ((i >=? 0x1c2b) &&& (i <=? 0x1c33)) then
               let wc := (0xe797 + (i - 0x1c2b)) in
               gb18030_2022_ext_mbtowc_j wc pwc
              else
               gb18030_2022_ext_mbtowc_j wc pwc
        else
         if (x3 =? 0xa7) then
          if ((i >=? 0x1cb5) &&& (i <=? 0x1cc3)) then
           let wc := (0xe7a0 + (i - 0x1cb5)) in
           gb18030_2022_ext_mbtowc_j wc pwc
          else
           if ((i >=? 0x1ce5) &&& (i <=? 0x1cf1)) then
            let wc := (0xe7af + (i - 0x1ce5)) in
            gb18030_2022_ext_mbtowc_j wc pwc
           else
            gb18030_2022_ext_mbtowc_j wc pwc
         else
          if (x3 =? 0xa8) then
           if ((i >=? 0x1d47) &&& (i <=? 0x1d51)) then
            let wc := (0xe7bc + (i - 0x1d47)) in
            gb18030_2022_ext_mbtowc_j wc pwc
           else
            if (i =? 0x1d6d) then
             let wc := 0x1e3f in
             gb18030_2022_ext_mbtowc_j wc pwc
            else
             if (i =? 0x1d70) then
              let wc := 0x1f9 in
              gb18030_2022_ext_mbtowc_j wc pwc
             else
              if ((i >=? 0x1d72) &&& (i <=? 0x1d75)) then
               let wc := (0xe7c9 + (i - 0x1d72)) in
               gb18030_2022_ext_mbtowc_j wc pwc
              else
               if ((i >=? 0x1d9b) &&& (i <=? 0x1daf)) then
                let wc := (0xe7cd + (i - 0x1d9b)) in
                gb18030_2022_ext_mbtowc_j wc pwc
               else
                gb18030_2022_ext_mbtowc_j wc pwc
          else
           if (x3 =? 0xa9) then
            if (i =? 0x1dc8) then
             let wc := 0xe7e2 in
             gb18030_2022_ext_mbtowc_j wc pwc
            else
             if (i =? 0x1dcb) then
              let wc := 0xe7e3 in
              gb18030_2022_ext_mbtowc_j wc pwc
             else
              if ((i >=? 0x1dcd) &&& (i <=? 0x1dcf)) then
               let wc := (0xe7e4 + (i - 0x1dcd)) in
               gb18030_2022_ext_mbtowc_j wc pwc
              else
               if ((i >=? 0x1df8) &&& (i <? 0x1e05)) then
                tget gb18030ext_2uni_pagea9 (i - 0x1df8) (fun x4 =>
                let wc := x4 in
                gb18030_2022_ext_mbtowc_j wc pwc)
               else
                if ((i >=? 0x1e06) &&& (i <=? 0x1e12)) then
                 let wc := (0xe7f4 + (i - 0x1e06)) in
                 gb18030_2022_ext_mbtowc_j wc pwc
                else
                 if ((i >=? 0x1e5f) &&& (i <=? 0x1e6d)) then
                  let wc := (0xe801 + (i - 0x1e5f)) in
                  gb18030_2022_ext_mbtowc_j wc pwc
                 else
                  gb18030_2022_ext_mbtowc_j wc pwc
           else
            if (x3 =? 0xd7) then
             if ((i >=? 0x408d) &&& (i <=? 0x4091)) then
              let wc := (0xe810 + (i - 0x408d)) in
              gb18030_2022_ext_mbtowc_j wc pwc
             else
              gb18030_2022_ext_mbtowc_j wc pwc
            else
             if (x3 =? 0xfe) then
              if (i <? 0x5d26) then
               tget gb18030_2022_ext_2uni_pagefe (u32 (i - 0x5cc6)) (fun x5 =>
               let wc := x5 in
               gb18030_2022_ext_mbtowc_j wc pwc)
              else
               gb18030_2022_ext_mbtowc_j wc pwc
             else
              gb18030_2022_ext_mbtowc_j wc pwc
    else
     Ok ((-1), pwc))
   else
    Ok ((-2), pwc)
  else
   Ok ((-1), pwc)).

(* lib/converters/gb18030ext.h:373-447 gb18030ext_wctomb *)
Definition gb18030ext_wctomb_j (c : Z) (r : wlog) : res (Z * wlog) :=
  if (negb (c =? 0)) then
   let r := wr r 0%nat (Z.shiftr c 8) in
   let r := wr r 1%nat (Z.land c 0xff) in
   Ok (2, r)
  else
   Ok ((-1), r).
(* lib/converters/gb18030ext.h:373-447 gb18030ext_wctomb *)
Definition gb18030ext_wctomb (wc : Z) (n : nat) : res (Z * wlog) :=
  let r := ([] : wlog) in
  if (Nat.leb 2%nat n) then
   let c := 0 in
   if (wc =? 0x1f9) then
    let c := 0xa8bf in
    gb18030ext_wctomb_j c r
   else
    if (wc =? 0x1e3f) then
     let c := 0xa8bc in
     gb18030ext_wctomb_j c r
    else
     if (wc =? 0x20ac) then
      let c := 0xa2e3 in
      gb18030ext_wctomb_j c r
     else
      if ((wc >=? 0x2e80) &&& (wc <? 0x2ed0)) then
       tget gb18030ext_page2e (wc - 0x2e80) (fun c =>
       gb18030ext_wctomb_j c r)
      else
       if ((wc >=? 0x2ff0) &&& (wc <? 0x3000)) then
        tget gb18030ext_page2f (wc - 0x2ff0) (fun c =>
        gb18030ext_wctomb_j c r)
       else
        if (wc =? 0x303e) then
         let c := 0xa989 in
         gb18030ext_wctomb_j c r
        else
         if ((wc >=? 0x3440) &&& (wc <? 0x3478)) then
          tget gb18030ext_page34 (wc - 0x3440) (fun c =>
          gb18030ext_wctomb_j c r)
         else
          if (wc =? 0x359e) then
           let c := 0xfe5a in
           gb18030ext_wctomb_j c r
          else
           if ((wc >=? 0x3608) &&& (wc <? 0x3620)) then
            tget gb18030ext_page36 (wc - 0x3608) (fun c =>
            gb18030ext_wctomb_j c r)
           else
            if (wc =? 0x3918) then
             let c := 0xfe60 in
             gb18030ext_wctomb_j c r
            else
             if (wc =? 0x396e) then
              let c := 0xfe5f in
              gb18030ext_wctomb_j c r
             else
              if ((wc >=? 0x39c8) &&& (wc <? 0x39e0)) then
               tget gb18030ext_page39 (wc - 0x39c8) (fun c =>
               gb18030ext_wctomb_j c r)
              else
               if (wc =? 0x3a73) then
                let c := 0xfe64 in
                gb18030ext_wctomb_j c r
               else
                if (wc =? 0x3b4e) then
                 let c := 0xfe68 in
                 gb18030ext_wctomb_j c r
                else
                 if (wc =? 0x3c6e) then
                  let c := 0xfe69 in
                  gb18030ext_wctomb_j c r
                 else
                  if (wc =? 0x3ce0) then
                   let c := 0xfe6a in
                   gb18030ext_wctomb_j c r
                  else
                   if (wc =? 0x4056) then
                    let c := 0xfe6f in
                    gb18030ext_wctomb_j c r
                   else
                    if (wc =? 0x415f) then
                     let c := 0xfe70 in
                     gb18030ext_wctomb_j c r
                    else
                     if (wc =? 0x4337) then
                      let c := 0xfe72 in
                      gb18030ext_wctomb_j c r
                     else
                      if ((wc >=? 0x43a8) &&& (wc <? 0x43e0)) then
                       tget gb18030ext_page43 (wc - 0x43a8) (fun c =>
                       gb18030ext_wctomb_j c r)
                      else
                       if (wc =? 0x44d6) then
                        let c := 0xfe7b in
                        gb18030ext_wctomb_j c r
                       else
                        if ((wc >=? 0x4648) &&& (wc <? 0x4668)) then
                         tget gb18030ext_page46 (wc - 0x4648) (fun c =>
                         gb18030ext_wctomb_j c r)
                        else
                         if ((wc >=? 0x4720) &&& (wc <? 0x4730)) then
                          tget gb18030ext_page47_1 (wc - 0x4720) (fun c =>
                          gb18030ext_wctomb_j c r)
                         else
                          if ((wc >=? 0x4778) &&& (wc <? 0x4790)) then
                           tget gb18030ext_page47_2 (wc - 0x4778) (fun c =>
                           gb18030ext_wctomb_j c r)
                          else
                           if ((wc >=? 0x4940) &&& (wc <? 0x49b8)) then
                            tget gb18030ext_page49 (wc - 0x4940) (fun c =>
                            gb18030ext_wctomb_j c r)
                           else
                            if ((wc >=? 0x4c70) &&& (wc <? 0x4ca8)) then
                             tget gb18030ext_page4c (wc - 0x4c70) (fun c =>
                             gb18030ext_wctomb_j c r)
                            else
                             if ((wc >=? 0x4d10) &&& (wc <? 0x4d20)) then
                              tget gb18030ext_page4d (wc - 0x4d10) (fun c =>
                              gb18030ext_wctomb_j c r)
                             else
                              if (wc =? 0x4dae) then
                               let c := 0xfe9f in
                               gb18030ext_wctomb_j c r
                              else
                               if ((wc >=? 0x9fb4) &&& (wc <? 0x9fbc)) then
                                tget gb18030ext_page9f (wc - 0x9fb0) (fun c =>
                                gb18030ext_wctomb_j c r)
                               else
                                if ((wc >=? 0xfe10) &&& (wc <? 0xfe1a)) then
                                 tget gb18030ext_pagefe (wc - 0xfe10) (fun c =>
                                 gb18030ext_wctomb_j c r)
                                else
                                 gb18030ext_wctomb_j c r
  else
   Ok ((-2), r).

(* lib/converters/gb18030uni.h:183-246 gb18030_2005_uni_mbtowc *)
Fixpoint gb18030_2005_uni_mbtowc_loop (fuel : nat) (i : Z) (k1 : Z) (k2 : Z) (pwc : option Z) {struct fuel} : res (Z * option Z) :=
  match fuel with O => NoFuel | S fuel =>
  if (k1 <? k2) then
   let k := ((k1 + k2) / 2) in
   tget gb18030uni_charset2uni_ranges ((2 * k) + 1) (fun x5 =>
   if (i <=? x5) then
    let k2 := k in
    gb18030_2005_uni_mbtowc_loop fuel i k1 k2 pwc
   else
    tget gb18030uni_charset2uni_ranges ((2 * k) + 2) (fun x6 =>
    if (i >=? x6) then
     let k1 := (k + 1) in
     gb18030_2005_uni_mbtowc_loop fuel i k1 k2 pwc
    else
     Ok ((-1), pwc)))
  else
   tget gb18030uni_ranges k1 (fun x7 =>
   let diff := x7 in
   let pwc := Some (i + diff) in
   Ok (4, pwc))
  end.
(* lib/converters/gb18030uni.h:183-246 gb18030_2005_uni_mbtowc *)
Definition gb18030_2005_uni_mbtowc (s : list Z) (n : nat) : res (Z * option Z) :=
  let pwc := (None : option Z) in
  rd s 0%nat (fun c1 =>
  if ((c1 >=? 0x81) &&& (c1 <=? 0x84)) then
   if (Nat.leb 2%nat n) then
    rd s 1%nat (fun c2 =>
    if ((c2 >=? 0x30) &&& (c2 <=? 0x39)) then
     if (Nat.leb 3%nat n) then
      rd s 2%nat (fun c3 =>
      if ((c3 >=? 0x81) &&& (c3 <=? 0xfe)) then
       if (Nat.leb 4%nat n) then
        rd s 3%nat (fun c4 =>
        if ((c4 >=? 0x30) &&& (c4 <=? 0x39)) then
         let i := (((((((c1 - 0x81) * 0xa) + (c2 - 0x30)) * 0x7e) + (c3 - 0x81)) * 0xa) + (c4 - 0x30)) in
         if ((i >=? 0) &&& (i <=? 0x99fb)) then
          if (i =? 0x1d21) then
           let pwc := Some 0xe7c7 in
           Ok (4, pwc)
          else
           let k1 := 0 in
           let k2 := 0xcd in
           gb18030_2005_uni_mbtowc_loop 64%nat i k1 k2 pwc
         else
          Ok ((-1), pwc)
        else
         Ok ((-1), pwc))
       else
        Ok ((-2), pwc)
      else
       Ok ((-1), pwc))
     else
      Ok ((-2), pwc)
    else
     Ok ((-1), pwc))
   else
    Ok ((-2), pwc)
  else
   Ok ((-1), pwc)).

(* lib/converters/gb18030uni.h:248-319 gb18030_2022_uni_mbtowc *)
Fixpoint gb18030_2022_uni_mbtowc_loop (fuel : nat) (i : Z) (k1 : Z) (k2 : Z) (pwc : option Z) {struct fuel} : res (Z * option Z) :=
  match fuel with O => NoFuel | S fuel =>
  if (k1 <? k2) then
   let k := ((k1 + k2) / 2) in
   tget gb18030uni_charset2uni_ranges ((2 * k) + 1) (fun x7 =>
   if (i <=? x7) then
    let k2 := k in
    gb18030_2022_uni_mbtowc_loop fuel i k1 k2 pwc
   else
    tget gb18030uni_charset2uni_ranges ((2 * k) + 2) (fun x8 =>
    if (i >=? x8) then
     let k1 := (k + 1) in
     gb18030_2022_uni_mbtowc_loop fuel i k1 k2 pwc
    else
     Ok ((-1), pwc)))
  else
   tget gb18030uni_ranges k1 (fun x9 =>
   let diff := x9 in
   let pwc := Some (i + diff) in
   Ok (4, pwc))
  end.
(* lib/converters/gb18030uni.h:248-319 gb18030_2022_uni_mbtowc *)
Definition gb18030_2022_uni_mbtowc (s : list Z) (n : nat) : res (Z * option Z) :=
  let pwc := (None : option Z) in
  rd s 0%nat (fun c1 =>
  if ((c1 >=? 0x81) &&& (c1 <=? 0x84)) then
   if (Nat.leb 2%nat n) then
    rd s 1%nat (fun c2 =>
    if ((c2 >=? 0x30) &&& (c2 <=? 0x39)) then
     if (Nat.leb 3%nat n) then
      rd s 2%nat (fun c3 =>
      if ((c3 >=? 0x81) &&& (c3 <=? 0xfe)) then
       if (Nat.leb 4%nat n) then
        rd s 3%nat (fun c4 =>
        if ((c4 >=? 0x30) &&& (c4 <=? 0x39)) then
         let i := (((((((c1 - 0x81) * 0xa) + (c2 - 0x30)) * 0x7e) + (c3 - 0x81)) * 0xa) + (c4 - 0x30)) in
         if ((i >=? 0) &&& (i <=? 0x99fb)) then
          if (i =? 0x1d21) then
           let pwc := Some 0xe7c7 in
           Ok (4, pwc)
          else
           if ((i >=? 0x4a71) &&& (i <=? 0x4a78)) then
            tget gb18030_2022_charset2uni_pua1 (i - 0x4a71) (fun x5 =>
            let pwc := Some x5 in
            Ok (4, pwc))
           else
            if ((i >=? 0x98a4) &&& (i <=? 0x98ad)) then
             tget gb18030_2022_charset2uni_pua2 (i - 0x98a4) (fun x6 =>
             let pwc := Some x6 in
             Ok (4, pwc))
            else
             let k1 := 0 in
             let k2 := 0xcd in
             gb18030_2022_uni_mbtowc_loop 64%nat i k1 k2 pwc
         else
          Ok ((-1), pwc)
        else
         Ok ((-1), pwc))
       else
        Ok ((-2), pwc)
      else
       Ok ((-1), pwc))
     else
      Ok ((-2), pwc)
    else
     Ok ((-1), pwc))
   else
    Ok ((-2), pwc)
  else
   Ok ((-1), pwc)).

(* lib/converters/gb18030uni.h:334-395 gb18030_2005_uni_wctomb *)
Definition gb18030_2005_uni_wctomb_j (i : Z) (r : wlog) : res (Z * wlog) :=
  let r := wr r 3%nat ((i mod 0xa) + 0x30) in
  let i := (i / 0xa) in
  let r := wr r 2%nat ((i mod 0x7e) + 0x81) in
  let i := (i / 0x7e) in
  let r := wr r 1%nat ((i mod 0xa) + 0x30) in
  let i := (i / 0xa) in
  let r := wr r 0%nat (u8 (i + 0x81)) in
  Ok (4, r).
(* lib/converters/gb18030uni.h:334-395 gb18030_2005_uni_wctomb *)
Fixpoint gb18030_2005_uni_wctomb_loop (fuel : nat) (i : Z) (k1 : Z) (k2 : Z) (r : wlog) {struct fuel} : res (Z * wlog) :=
  match fuel with O => NoFuel | S fuel =>
  if (k1 <? k2) then
   let k := ((k1 + k2) / 2) in
   tget gb18030uni_uni2charset_ranges ((2 * k) + 1) (fun x1 =>
   if (i <=? x1) then
    let k2 := k in
    gb18030_2005_uni_wctomb_loop fuel i k1 k2 r
   else
    tget gb18030uni_uni2charset_ranges ((2 * k) + 2) (fun x2 =>
    if (i >=? x2) then
     let k1 := (k + 1) in
     gb18030_2005_uni_wctomb_loop fuel i k1 k2 r
    else
     Ok ((-1), r)))
  else
   tget gb18030uni_ranges k1 (fun x3 =>
   let diff := x3 in
   let i := (u32 (i - diff)) in
   gb18030_2005_uni_wctomb_j i r)
  end.
(* lib/converters/gb18030uni.h:334-395 gb18030_2005_uni_wctomb *)
Definition gb18030_2005_uni_wctomb (wc : Z) (n : nat) : res (Z * wlog) :=
  let r := ([] : wlog) in
  if (Nat.leb 4%nat n) then
   if ((wc >=? 0x80) &&& (wc <=? 0xffff)) then
    if (wc =? 0xe7c7) then
     let i := 0x1d21 in
     gb18030_2005_uni_wctomb_j i r
    else
     let k1 := 0 in
     let k2 := 0xcd in
     let i := wc in
     gb18030_2005_uni_wctomb_loop 64%nat i k1 k2 r
   else
    if ((wc >=? 0x20087) &&& (wc <=? 0x241fe)) then
     if (wc =? 0x20087) then
      let i := 0x3e2cf in
      gb18030_2005_uni_wctomb_j i r
     else
      if (wc =? 0x20089) then
       let i := 0x3e2d1 in
       gb18030_2005_uni_wctomb_j i r
      else
       if (wc =? 0x200cc) then
        let i := 0x3e314 in
        gb18030_2005_uni_wctomb_j i r
       else
        if (wc =? 0x215d7) then
         let i := 0x3f81f in
         gb18030_2005_uni_wctomb_j i r
        else
         if (wc =? 0x2298f) then
          let i := 0x40bd7 in
          gb18030_2005_uni_wctomb_j i r
         else
          if (wc =? 0x241fe) then
           let i := 0x42446 in
           gb18030_2005_uni_wctomb_j i r
          else
           Ok ((-1), r)
    else
     Ok ((-1), r)
  else
   Ok ((-2), r).

(* lib/converters/gb18030uni.h:397-448 gb18030_2022_uni_wctomb *)
Definition gb18030_2022_uni_wctomb_j2 (i : Z) (r : wlog) : res (Z * wlog) :=
  let r := wr r 3%nat ((i mod 0xa) + 0x30) in
  let i := (i / 0xa) in
  let r := wr r 2%nat ((i mod 0x7e) + 0x81) in
  let i := (i / 0x7e) in
  let r := wr r 1%nat ((i mod 0xa) + 0x30) in
  let i := (i / 0xa) in
  let r := wr r 0%nat (u8 (i + 0x81)) in
  Ok (4, r).
(* lib/converters/gb18030uni.h:397-448 gb18030_2022_uni_wctomb *)
Fixpoint gb18030_2022_uni_wctomb_loop (fuel : nat) (i : Z) (k1 : Z) (k2 : Z) (r : wlog) {struct fuel} : res (Z * wlog) :=
  match fuel with O => NoFuel | S fuel =>
  if (k1 <? k2) then
   let k := ((k1 + k2) / 2) in
   tget gb18030uni_uni2charset_ranges ((2 * k) + 1) (fun x4 =>
   if (i <=? x4) then
    let k2 := k in
    gb18030_2022_uni_wctomb_loop fuel i k1 k2 r
   else
    tget gb18030uni_uni2charset_ranges ((2 * k) + 2) (fun x5 =>
    if (i >=? x5) then
     let k1 := (k + 1) in
     gb18030_2022_uni_wctomb_loop fuel i k1 k2 r
    else
     Ok ((-1), r)))
  else
   tget gb18030uni_ranges k1 (fun x6 =>
   let diff := x6 in
   let i := (u32 (i - diff)) in
   gb18030_2022_uni_wctomb_j2 i r)
  end.
(* lib/converters/gb18030uni.h:397-448 gb18030_2022_uni_wctomb *)
Definition gb18030_2022_uni_wctomb_j (wc : Z) (r : wlog) : res (Z * wlog) :=
  let k1 := 0 in
  let k2 := 0xcd in
  let i := wc in
  gb18030_2022_uni_wctomb_loop 64%nat i k1 k2 r.
(* lib/converters/gb18030uni.h:397-448 gb18030_2022_uni_wctomb *)
Definition gb18030_2022_uni_wctomb (wc : Z) (n : nat) : res (Z * wlog) :=
  let r := ([] : wlog) in
  if (Nat.leb 4%nat n) then
   if ((wc >=? 0x80) &&& (wc <=? 0xffff)) then
    if (wc =? 0xe7c7) then
     let i := 0x1d21 in
     gb18030_2022_uni_wctomb_j2 i r
    else
     if ((wc >=? 0xe78d) &&& (wc <=? 0xe796)) then
      tget gb18030_2022_uni2charset_pua2 (wc - 0xe78d) (fun x1 =>
      let i := (0x98a4 + x1) in
      gb18030_2022_uni_wctomb_j2 i r)
     else
      if ((wc >=? 0xe81e) &&& (wc <=? 0xe864)) then
       tget gb18030_2022_uni2charset_pua1 (wc - 0xe81e) (fun x2 =>
       if (negb (x2 =? 0)) then
        let i := (0x4a70 + x2) in
        gb18030_2022_uni_wctomb_j2 i r
       else
        gb18030_2022_uni_wctomb_j wc r)
      else
       gb18030_2022_uni_wctomb_j wc r
   else
    Ok ((-1), r)
  else
   Ok ((-2), r).

(* lib/converters/big5_2003.h:195-296 big5_2003_mbtowc *)
Definition big5_2003_mbtowc_j (c : Z) (c2 : Z) (s : list Z) (pwc : option Z) : res (Z * option Z) :=
  if (negb (((c =? 0xc6) &&& (c2 >=? 0xa1)) ||| (c =? 0xc7))) then
   if (negb ((c =? 0xc2) &&& (c2 =? 0x55))) then
    bind (big5_mbtowc s 2%nat) (fun '(ret, o) =>
    let pwc := oset pwc o in
    if (negb (ret =? (-1))) then
     Ok (ret, pwc)
    else
     if (c =? 0xa3) then
      if ((c2 >=? 0xc0) &&& (c2 <=? 0xe1)) then
       let pwc := Some (if (c2 =? 0xe1) then 0x20ac else (if (c2 =? 0xe0) then 0x2421 else (0x2340 + c2))) in
       Ok (2, pwc)
      else
       Ok ((-1), pwc)
     else
      if (c =? 0xf9) then
       if (c2 >=? 0xd6) then
        tget big5_2003_2uni_pagef9 (c2 - 0xd6) (fun x6 =>
        let pwc := Some x6 in
        Ok (2, pwc))
       else
        Ok ((-1), pwc)
      else
       if (c >=? 0xfa) then
        let pwc := Some ((0xe000 + (0x9d * (c - 0xfa))) + (c2 - (if (c2 >=? 0xa1) then 0x62 else 0x40))) in
        Ok (2, pwc)
       else
        Ok ((-1), pwc))
   else
    let pwc := Some 0x5f5e in
    Ok (2, pwc)
  else
   let i := (u32 ((0x9d * (c - 0xc6)) + (c2 - (if (c2 >=? 0xa1) then 0x62 else 0x40)))) in
   if (i <? 0x85) then
    tget big5_2003_2uni_pagec6 (u32 (i - 0x3f)) (fun wc =>
    if (negb (wc =? 0xfffd)) then
     let pwc := Some wc in
     Ok (2, pwc)
    else
     Ok ((-1), pwc))
   else
    if (i <? 0xd8) then
     let pwc := Some (0x2fbc + i) in
     Ok (2, pwc)
    else
     if (i <? 0x12e) then
      let pwc := Some (0x2fc9 + i) in
      Ok (2, pwc)
     else
      Ok ((-1), pwc).
(* lib/converters/big5_2003.h:195-296 big5_2003_mbtowc *)
Definition big5_2003_mbtowc (s : list Z) (n : nat) : res (Z * option Z) :=
  let pwc := (None : option Z) in
  rd s 0%nat (fun c =>
  if (c <? 0x80) then
   bind (ascii_mbtowc s n) (fun '(x2, o) =>
   let pwc := oset pwc o in
   Ok (x2, pwc))
  else
   if ((c >=? 0x81) &&& (c <? 0xff)) then
    if (Nat.ltb n 2%nat) then
     Ok ((-2), pwc)
    else
     rd s 1%nat (fun c2 =>
     if (((c2 >=? 0x40) &&& (c2 <? 0x7f)) ||| ((c2 >=? 0xa1) &&& (c2 <? 0xff))) then
      if (c >=? 0xa1) then
       if (c <? 0xa3) then
        let i := (u32 ((0x9d * (c - 0xa1)) + (c2 - (if (c2 >=? 0xa1) then 0x62 else 0x40)))) in
        tget big5_2003_2uni_pagea1 i (fun wc =>
        if (negb (wc =? 0xfffd)) then
         let pwc := Some wc in
         Ok (2, pwc)
        else
         big5_2003_mbtowc_j c c2 s pwc)
       else
        big5_2003_mbtowc_j c c2 s pwc
      else
       let pwc := Some (((if (c >=? 0x8e) then 0xdb18 else 0xeeb8) + (0x9d * (c - 0x81))) + (c2 - (if (c2 >=? 0xa1) then 0x62 else 0x40))) in
       Ok (2, pwc)
     else
      Ok ((-1), pwc))
   else
    Ok ((-1), pwc)).

(* lib/converters/big5_2003.h:304-960 big5_2003_wctomb *)
Definition big5_2003_wctomb_j4 (buf : wlog) (ret : Z) (n : nat) (r : wlog) : res (Z * wlog) :=
  if (negb (ret =? (-1))) then
   if (negb (ret =? 2)) then
    Abort
   else
    if (Nat.ltb n 2%nat) then
     Ok ((-2), r)
    else
     lrd buf 0%nat (fun x5 =>
     let r := wr r 0%nat x5 in
     lrd buf 1%nat (fun x6 =>
     let r := wr r 1%nat x6 in
     Ok (2, r)))
  else
   Ok ((-1), r).
(* lib/converters/big5_2003.h:304-960 big5_2003_wctomb *)
Definition big5_2003_wctomb_j (buf : wlog) (ret : Z) (wc : Z) (n : nat) (r : wlog) : res (Z * wlog) :=
  if (ret =? (-1)) then
   bind (big5_wctomb wc 2%nat) (fun '(ret, l) =>
   lappb 2%nat buf 0%nat l (fun buf =>
   big5_2003_wctomb_j4 buf ret n r))
  else
   big5_2003_wctomb_j4 buf ret n r.
(* lib/converters/big5_2003.h:304-960 big5_2003_wctomb *)
Definition big5_2003_wctomb_j3 (buf : wlog) (wc : Z) (n : nat) (r : wlog) : res (Z * wlog) :=
  let ret := 2 in
  big5_2003_wctomb_j buf ret wc n r.
(* lib/converters/big5_2003.h:304-960 big5_2003_wctomb *)
Definition big5_2003_wctomb_j2 (buf : wlog) (ret : Z) (wc : Z) (n : nat) (r : wlog) : res (Z * wlog) :=
  let i := (u32 (wc - 0xe000)) in
  if (i <? 0x16b1) then
   let c1 := (i / 0x9d) in
   let c2 := (i mod 0x9d) in
   wrb 2%nat buf 0%nat (u8 (c1 + (if (c1 <? 5) then 0xfa else (if (c1 <? 0x18) then 0x89 else 0x69)))) (fun buf =>
   wrb 2%nat buf 1%nat (c2 + (if (c2 <? 0x3f) then 0x40 else 0x62)) (fun buf =>
   let ret := 2 in
   big5_2003_wctomb_j buf ret wc n r))
  else
   big5_2003_wctomb_j buf ret wc n r.
(* lib/converters/big5_2003.h:304-960 big5_2003_wctomb *)
Definition big5_2003_wctomb (wc : Z) (n : nat) : res (Z * wlog) :=
  let r := ([] : wlog) in
  let buf := ([] : wlog) in
  bind (ascii_wctomb wc n) (fun '(ret, l) =>
  let r := lapp r 0%nat l in
  if (negb (ret =? (-1))) then
   Ok (ret, r)
  else
   let x2 := (Z.shiftr wc 8) in
   if (x2 =? 0) then
    if (wc =? 0xa8) then
     wrb 2%nat buf 0%nat 0xc6 (fun buf =>
     wrb 2%nat buf 1%nat 0xd8 (fun buf =>
     let ret := 2 in
     big5_2003_wctomb_j buf ret wc n r))
    else
     if (((wc =? 0xa2) ||| (wc =? 0xa3)) ||| (wc =? 0xa5)) then
      Ok ((-1), r)
     else
      big5_2003_wctomb_j buf ret wc n r
   else
    if (x2 =? 2) then
     if (wc =? 0x2cd) then
      wrb 2%nat buf 0%nat 0xa1 (fun buf =>
      wrb 2%nat buf 1%nat 0xc5 (fun buf =>
      let ret := 2 in
      big5_2003_wctomb_j buf ret wc n r))
     else
      big5_2003_wctomb_j buf ret wc n r
    else
     if (x2 =? 4) then
      Ok ((-1), r)
     else
      if (x2 =? 0x20) then
       if (wc =? 0x2015) then
        wrb 2%nat buf 0%nat 0xa1 (fun buf =>
        wrb 2%nat buf 1%nat 0x56 (fun buf =>
        let ret := 2 in
        big5_2003_wctomb_j buf ret wc n r))
       else
        if (wc =? 0x2027) then
         wrb 2%nat buf 0%nat 0xa1 (fun buf =>
         wrb 2%nat buf 1%nat 0x45 (fun buf =>
         let ret := 2 in
         big5_2003_wctomb_j buf ret wc n r))
        else
         if (wc =? 0x20ac) then
          wrb 2%nat buf 0%nat 0xa3 (fun buf =>
          wrb 2%nat buf 1%nat 0xe1 (fun buf =>
          let ret := 2 in
          big5_2003_wctomb_j buf ret wc n r))
         else
          if ((wc =? 0x2013) ||| (wc =? 0x2022)) then
           Ok ((-1), r)
          else
           big5_2003_wctomb_j buf ret wc n r
      else
       if (x2 =? 0x21) then
        if ((wc >=? 0x2170) &&& (wc <=? 0x2179)) then
         wrb 2%nat buf 0%nat 0xc6 (fun buf =>
         wrb 2%nat buf 1%nat (wc - 0x20bb) (fun buf =>
         let ret := 2 in
         big5_2003_wctomb_j buf ret wc n r))
        else
         big5_2003_wctomb_j buf ret wc n r
       else
        if (x2 =? 0x22) then
         if (wc =? 0x2215) then
          wrb 2%nat buf 0%nat 0xa2 (fun buf =>
          wrb 2%nat buf 1%nat 0x41 (fun buf =>
          let ret := 2 in
          big5_2003_wctomb_j buf ret wc n r))
         else
          if (wc =? 0x2295) then
           wrb 2%nat buf 0%nat 0xa1 (fun buf =>
           wrb 2%nat buf 1%nat 0xf2 (fun buf =>
           let ret := 2 in
           big5_2003_wctomb_j buf ret wc n r))
          else
           if (wc =? 0x2299) then
            wrb 2%nat buf 0%nat 0xa1 (fun buf =>
            wrb 2%nat buf 1%nat 0xf3 (fun buf =>
            let ret := 2 in
            big5_2003_wctomb_j buf ret wc n r))
           else
            if (wc =? 0x223c) then
             Ok ((-1), r)
            else
             big5_2003_wctomb_j buf ret wc n r
        else
         if (x2 =? 0x24) then
          if (wc <=? 0x241f) then
           wrb 2%nat buf 0%nat 0xa3 (fun buf =>
           wrb 2%nat buf 1%nat (u8 (u32 (wc - 0x2340))) (fun buf =>
           let ret := 2 in
           big5_2003_wctomb_j buf ret wc n r))
          else
           if (wc =? 0x2421) then
            wrb 2%nat buf 0%nat 0xa3 (fun buf =>
            wrb 2%nat buf 1%nat 0xe0 (fun buf =>
            let ret := 2 in
            big5_2003_wctomb_j buf ret wc n r))
           else
            if ((wc >=? 0x2460) &&& (wc <=? 0x2469)) then
             wrb 2%nat buf 0%nat 0xc6 (fun buf =>
             wrb 2%nat buf 1%nat (wc - 0x23bf) (fun buf =>
             let ret := 2 in
             big5_2003_wctomb_j buf ret wc n r))
            else
             if ((wc >=? 0x2474) &&& (wc <=? 0x247d)) then
              wrb 2%nat buf 0%nat 0xc6 (fun buf =>
              wrb 2%nat buf 1%nat (wc - 0x23c9) (fun buf =>
              let ret := 2 in
              big5_2003_wctomb_j buf ret wc n r))
             else
              big5_2003_wctomb_j buf ret wc n r
         else
          if (x2 =? 0x25) then
           if (wc =? 0x2501) then
            wrb 2%nat buf 0%nat 0xa2 (fun buf =>
            wrb 2%nat buf 1%nat 0xa4 (fun buf =>
            let ret := 2 in
            big5_2003_wctomb_j buf ret wc n r))
           else
            if (wc =? 0x251d) then
             wrb 2%nat buf 0%nat 0xa2 (fun buf =>
             wrb 2%nat buf 1%nat 0xa5 (fun buf =>
             let ret := 2 in
             big5_2003_wctomb_j buf ret wc n r))
            else
             if (wc =? 0x2525) then
              wrb 2%nat buf 0%nat 0xa2 (fun buf =>
              wrb 2%nat buf 1%nat 0xa7 (fun buf =>
              let ret := 2 in
              big5_2003_wctomb_j buf ret wc n r))
             else
              if (wc =? 0x253f) then
               wrb 2%nat buf 0%nat 0xa2 (fun buf =>
               wrb 2%nat buf 1%nat 0xa6 (fun buf =>
               let ret := 2 in
               big5_2003_wctomb_j buf ret wc n r))
              else
               if ((wc >=? 0x2550) &&& (wc <=? 0x256c)) then
                wrb 2%nat buf 0%nat 0xf9 (fun buf =>
                tget big5_2003_2charset_page25 (wc - 0x2550) (fun x3 =>
                wrb 2%nat buf 1%nat x3 (fun buf =>
                let ret := 2 in
                big5_2003_wctomb_j buf ret wc n r)))
               else
                if (wc =? 0x2574) then
                 wrb 2%nat buf 0%nat 0xa1 (fun buf =>
                 wrb 2%nat buf 1%nat 0x5a (fun buf =>
                 let ret := 2 in
                 big5_2003_wctomb_j buf ret wc n r))
                else
                 if (wc =? 0x2593) then
                  wrb 2%nat buf 0%nat 0xf9 (fun buf =>
                  wrb 2%nat buf 1%nat 0xfe (fun buf =>
                  let ret := 2 in
                  big5_2003_wctomb_j buf ret wc n r))
                 else
                  big5_2003_wctomb_j buf ret wc n r
          else
           if (x2 =? 0x26) then
            if ((wc =? 0x2609) ||| (wc =? 0x2641)) then
             Ok ((-1), r)
            else
             big5_2003_wctomb_j buf ret wc n r
           else
            if (x2 =? 0x27) then
             if (wc =? 0x273d) then
              wrb 2%nat buf 0%nat 0xc6 (fun buf =>
              wrb 2%nat buf 1%nat 0xe6 (fun buf =>
              let ret := 2 in
              big5_2003_wctomb_j buf ret wc n r))
             else
              big5_2003_wctomb_j buf ret wc n r
            else
             if (x2 =? 0x2f) then
              if (wc =? 0x2f02) then
               wrb 2%nat buf 0%nat 0xc6 (fun buf =>
               wrb 2%nat buf 1%nat 0xbf (fun buf =>
               let ret := 2 in
               big5_2003_wctomb_j buf ret wc n r))
              else
               if (wc =? 0x2f03) then
                wrb 2%nat buf 0%nat 0xc6 (fun buf =>
                wrb 2%nat buf 1%nat 0xc0 (fun buf =>
                let ret := 2 in
                big5_2003_wctomb_j buf ret wc n r))
               else
                if (wc =? 0x2f05) then
                 wrb 2%nat buf 0%nat 0xc6 (fun buf =>
                 wrb 2%nat buf 1%nat 0xc1 (fun buf =>
                 let ret := 2 in
                 big5_2003_wctomb_j buf ret wc n r))
                else
                 if (wc =? 0x2f07) then
                  wrb 2%nat buf 0%nat 0xc6 (fun buf =>
                  wrb 2%nat buf 1%nat 0xc2 (fun buf =>
                  let ret := 2 in
                  big5_2003_wctomb_j buf ret wc n r))
                 else
                  if (wc =? 0x2f0c) then
                   wrb 2%nat buf 0%nat 0xc6 (fun buf =>
                   wrb 2%nat buf 1%nat 0xc3 (fun buf =>
                   let ret := 2 in
                   big5_2003_wctomb_j buf ret wc n r))
                  else
                   if (wc =? 0x2f0d) then
                    wrb 2%nat buf 0%nat 0xc6 (fun buf =>
                    wrb 2%nat buf 1%nat 0xc4 (fun buf =>
                    let ret := 2 in
                    big5_2003_wctomb_j buf ret wc n r))
                   else
                    if (wc =? 0x2f0e) then
                     wrb 2%nat buf 0%nat 0xc6 (fun buf =>
                     wrb 2%nat buf 1%nat 0xc5 (fun buf =>
                     let ret := 2 in
                     big5_2003_wctomb_j buf ret wc n r))
                    else
                     if (wc =? 0x2f13) then
                      wrb 2%nat buf 0%nat 0xc6 (fun buf =>
                      wrb 2%nat buf 1%nat 0xc6 (fun buf =>
                      let ret := 2 in
                      big5_2003_wctomb_j buf ret wc n r))
                     else
                      if (wc =? 0x2f16) then
                       wrb 2%nat buf 0%nat 0xc6 (fun buf =>
                       wrb 2%nat buf 1%nat 0xc7 (fun buf =>
                       let ret := 2 in
                       big5_2003_wctomb_j buf ret wc n r))
                      else
                       if (wc =? 0x2f19) then
                        wrb 2%nat buf 0%nat 0xc6 (fun buf =>
                        wrb 2%nat buf 1%nat 0xc8 (fun buf =>
                        let ret := 2 in
                        big5_2003_wctomb_j buf ret wc n r))
                       else
                        if (wc =? 0x2f1b) then
                         wrb 2%nat buf 0%nat 0xc6 (fun buf =>
                         wrb 2%nat buf 1%nat 0xc9 (fun buf =>
                         let ret := 2 in
                         big5_2003_wctomb_j buf ret wc n r))
                        else
                         if (wc =? 0x2f22) then
                          wrb 2%nat buf 0%nat 0xc6 (fun buf =>
                          wrb 2%nat buf 1%nat 0xca (fun buf =>
                          let ret := 2 in
                          big5_2003_wctomb_j buf ret wc n r))
                         else
                          if (wc =? 0x2f27) then
                           wrb 2%nat buf 0%nat 0xc6 (fun buf =>
                           wrb 2%nat buf 1%nat 0xcb (fun buf =>
                           let ret := 2 in
                           big5_2003_wctomb_j buf ret wc n r))
                          else
                           if (wc =? 0x2f2e) then
                            wrb 2%nat buf 0%nat 0xc6 (fun buf =>
                            wrb 2%nat buf 1%nat 0xcc (fun buf =>
                            let ret := 2 in
                            big5_2003_wctomb_j buf ret wc n r))
                           else
                            if (wc =? 0x2f33) then
                             wrb 2%nat buf 0%nat 0xc6 (fun buf =>
                             wrb 2%nat buf 1%nat 0xcd (fun buf =>
                             let ret := 2 in
                             big5_2003_wctomb_j buf ret wc n r))
                            else
                             if (wc =? 0x2f34) then
                              wrb 2%nat buf 0%nat 0xc6 (fun buf =>
                              wrb 2%nat buf 1%nat 0xce (fun buf =>
                              let ret := 2 in
                              big5_2003_wctomb_j buf ret wc n r))
                             else
                              if (wc =? 0x2f35) then
                               wrb 2%nat buf 0%nat 0xc6 (fun buf =>
                               wrb 2%nat buf 1%nat 0xcf (fun buf =>
                               let ret := 2 in
                               big5_2003_wctomb_j buf ret wc n r))
                              else
                               if (wc =? 0x2f39) then
                                wrb 2%nat buf 0%nat 0xc6 (fun buf =>
                                wrb 2%nat buf 1%nat 0xd0 (fun buf =>
                                let ret := 2 in
                                big5_2003_wctomb_j buf ret wc n r))
                               else
                                if (wc =? 0x2f3a) then
                                 wrb 2%nat buf 0%nat 0xc6 (fun buf =>
                                 wrb 2%nat buf 1%nat 0xd1 (fun buf =>
                                 let ret := 2 in
                                 big5_2003_wctomb_j buf ret wc n r))
                                else
                                 if (wc =? 0x2f41) then
                                  wrb 2%nat buf 0%nat 0xc6 (fun buf =>
                                  wrb 2%nat buf 1%nat 0xd2 (fun buf =>
                                  let ret := 2 in
                                  big5_2003_wctomb_j buf ret wc n r))
                                 else
                                  if (wc =? 0x2f46) then
                                   wrb 2%nat buf 0%nat 0xc6 (fun buf =>
                                   wrb 2%nat buf 1%nat 0xd3 (fun buf =>
                                   let ret := 2 in
                                   big5_2003_wctomb_j buf ret wc n r))
                                  else
                                   if (wc =? 0x2f67) then
                                    wrb 2%nat buf 0%nat 0xc6 (fun buf =>
                                    wrb 2%nat buf 1%nat 0xd4 (fun buf =>
                                    let ret := 2 in
                                    big5_2003_wctomb_j buf ret wc n r))
                                   else
                                    if (wc =? 0x2f68) then
                                     wrb 2%nat buf 0%nat 0xc6 (fun buf =>
                                     wrb 2%nat buf 1%nat 0xd5 (fun buf =>
                                     let ret := 2 in
                                     big5_2003_wctomb_j buf ret wc n r))
                                    else
                                     if (wc =? 0x2fa1) then
                                      wrb 2%nat buf 0%nat 0xc6 (fun buf =>
                                      wrb 2%nat buf 1%nat 0xd6 (fun buf =>
                                      let ret := 2 in
                                      big5_2003_wctomb_j buf ret wc n r))
                                     else
                                      if (wc =? 0x2faa) then
                                       wrb 2%nat buf 0%nat 0xc6 (fun buf =>
                                       wrb 2%nat buf 1%nat 0xd7 (fun buf =>
                                       let ret := 2 in
                                       big5_2003_wctomb_j buf ret wc n r))
                                      else
                                       big5_2003_wctomb_j buf ret wc n r
             else
              if (x2 =? 0x30) then
               if ((wc >=? 0x3005) &&& (wc <=? 0x3007)) then
                wrb 2%nat buf 0%nat 0xc6 (fun buf =>
                wrb 2%nat buf 1%nat (wc - 0x2f25) (fun buf =>
                let ret := 2 in
                big5_2003_wctomb_j buf ret wc n r))
               else
                if ((wc >=? 0x3038) &&& (wc <=? 0x303a)) then
                 wrb 2%nat buf 0%nat 0xa2 (fun buf =>
                 wrb 2%nat buf 1%nat (wc - 0x2f6c) (fun buf =>
                 let ret := 2 in
                 big5_2003_wctomb_j buf ret wc n r))
                else
                 if ((wc >=? 0x3041) &&& (wc <=? 0x3093)) then
                  if (wc <? 0x3059) then
                   wrb 2%nat buf 0%nat 0xc6 (fun buf =>
                   wrb 2%nat buf 1%nat (wc - 0x2f5a) (fun buf =>
                   big5_2003_wctomb_j3 buf wc n r))
                  else
                   wrb 2%nat buf 0%nat 0xc7 (fun buf =>
                   wrb 2%nat buf 1%nat (wc - 0x3019) (fun buf =>
                   big5_2003_wctomb_j3 buf wc n r))
                 else
                  if (wc =? 0x309d) then
                   wrb 2%nat buf 0%nat 0xc6 (fun buf =>
                   wrb 2%nat buf 1%nat 0xdc (fun buf =>
                   let ret := 2 in
                   big5_2003_wctomb_j buf ret wc n r))
                  else
                   if (wc =? 0x309e) then
                    wrb 2%nat buf 0%nat 0xc6 (fun buf =>
                    wrb 2%nat buf 1%nat 0xdd (fun buf =>
                    let ret := 2 in
                    big5_2003_wctomb_j buf ret wc n r))
                   else
                    if ((wc >=? 0x30a1) &&& (wc <=? 0x30f6)) then
                     wrb 2%nat buf 0%nat 0xc7 (fun buf =>
                     wrb 2%nat buf 1%nat (wc - (if (wc <? 0x30a5) then 0x3026 else 0x3004)) (fun buf =>
                     let ret := 2 in
                     big5_2003_wctomb_j buf ret wc n r))
                    else
                     if (wc =? 0x30fc) then
                      wrb 2%nat buf 0%nat 0xc6 (fun buf =>
                      wrb 2%nat buf 1%nat 0xe3 (fun buf =>
                      let ret := 2 in
                      big5_2003_wctomb_j buf ret wc n r))
                     else
                      if (wc =? 0x30fd) then
                       wrb 2%nat buf 0%nat 0xc6 (fun buf =>
                       wrb 2%nat buf 1%nat 0xda (fun buf =>
                       let ret := 2 in
                       big5_2003_wctomb_j buf ret wc n r))
                      else
                       if (wc =? 0x30fe) then
                        wrb 2%nat buf 0%nat 0xc6 (fun buf =>
                        wrb 2%nat buf 1%nat 0xdb (fun buf =>
                        let ret := 2 in
                        big5_2003_wctomb_j buf ret wc n r))
                       else
                        big5_2003_wctomb_j buf ret wc n r
              else
               if (x2 =? 0x53) then
                if (wc =? 0x5344) then
                 Ok ((-1), r)
                else
                 big5_2003_wctomb_j buf ret wc n r
               else
                if (x2 =? 0x58) then
                 if (wc =? 0x58bb) then
                  wrb 2%nat buf 0%nat 0xf9 (fun buf =>
                  wrb 2%nat buf 1%nat 0xd9 (fun buf =>
                  let ret := 2 in
                  big5_2003_wctomb_j buf ret wc n r))
                 else
                  big5_2003_wctomb_j buf ret wc n r
                else
                 if (x2 =? 0x5a) then
                  if (wc =? 0x5afa) then
                   wrb 2%nat buf 0%nat 0xf9 (fun buf =>
                   wrb 2%nat buf 1%nat 0xdc (fun buf =>
                   let ret := 2 in
                   big5_2003_wctomb_j buf ret wc n r))
                  else
                   big5_2003_wctomb_j buf ret wc n r
                 else
                  if (x2 =? 0x5f) then
                   if (wc =? 0x5f5e) then
                    wrb 2%nat buf 0%nat 0xc2 (fun buf =>
                    wrb 2%nat buf 1%nat 0x55 (fun buf =>
                    let ret := 2 in
                    big5_2003_wctomb_j buf ret wc n r))
                   else
                    if (wc =? 0x5f5d) then
                     Ok ((-1), r)
                    else
                     big5_2003_wctomb_j buf ret wc n r
                  else
                   if (x2 =? 0x60) then
                    if (wc =? 0x6052) then
                     wrb 2%nat buf 0%nat 0xf9 (fun buf =>
                     wrb 2%nat buf 1%nat 0xda (fun buf =>
                     let ret := 2 in
                     big5_2003_wctomb_j buf ret wc n r))
                    else
                     big5_2003_wctomb_j buf ret wc n r
                   else
                    if (x2 =? 0x78) then
                     if (wc =? 0x7881) then
                      wrb 2%nat buf 0%nat 0xf9 (fun buf =>
                      wrb 2%nat buf 1%nat 0xd6 (fun buf =>
                      let ret := 2 in
                      big5_2003_wctomb_j buf ret wc n r))
                     else
                      big5_2003_wctomb_j buf ret wc n r
                    else
                     if (x2 =? 0x7c) then
                      if (wc =? 0x7ca7) then
                       wrb 2%nat buf 0%nat 0xf9 (fun buf =>
                       wrb 2%nat buf 1%nat 0xdb (fun buf =>
                       let ret := 2 in
                       big5_2003_wctomb_j buf ret wc n r))
                      else
                       big5_2003_wctomb_j buf ret wc n r
                     else
                      if (x2 =? 0x88) then
                       if (wc =? 0x88cf) then
                        wrb 2%nat buf 0%nat 0xf9 (fun buf =>
                        wrb 2%nat buf 1%nat 0xd8 (fun buf =>
                        let ret := 2 in
                        big5_2003_wctomb_j buf ret wc n r))
                       else
                        big5_2003_wctomb_j buf ret wc n r
                      else
                       if (x2 =? 0x92) then
                        if (wc =? 0x92b9) then
                         wrb 2%nat buf 0%nat 0xf9 (fun buf =>
                         wrb 2%nat buf 1%nat 0xd7 (fun buf =>
                         let ret := 2 in
                         big5_2003_wctomb_j buf ret wc n r))
                        else
                         big5_2003_wctomb_j buf ret wc n r
                       else
                        if (x2 =? 0xe0) then
                         big5_2003_wctomb_j2 buf ret wc n r
                        else
                         if (x2 =? 0xe1) then
                          big5_2003_wctomb_j2 buf ret wc n r
                         else
                          if (x2 =? 0xe2) then
                           big5_2003_wctomb_j2 buf ret wc n r
                          else
                           if (x2 =? 0xe3) then
                            big5_2003_wctomb_j2 buf ret wc n r
                           else
                            if (x2 =? 0xe4) then
                             big5_2003_wctomb_j2 buf ret wc n r
                            else
                             if (x2 =? 0xe5) then
                              big5_2003_wctomb_j2 buf ret wc n r
                             else
                              if (x2 =? 0xe6) then
                               big5_2003_wctomb_j2 buf ret wc n r
                              else
                               if (x2 =? 0xe7) then
                                big5_2003_wctomb_j2 buf ret wc n r
                               else
                                if (x2 =? 0xe8) then
                                 big5_2003_wctomb_j2 buf ret wc n r
                                else
                                 if (x2 =? 0xe9) then
                                  big5_2003_wctomb_j2 buf ret wc n r
                                 else
                                  if (x2 =? 0xea) then
                                   big5_2003_wctomb_j2 buf ret wc n r
                                  else
                                   if (x2 =? 0xeb) then
                                    big5_2003_wctomb_j2 buf ret wc n r
                                   else
                                    if (x2 =? 0xec) then
                                     big5_2003_wctomb_j2 buf ret wc n r
                                    else
                                     if (x2 =? 0xed) then
                                      big5_2003_wctomb_j2 buf ret wc n r
                                     else
                                      if (x2 =? 0xee) then
                                       big5_2003_wctomb_j2 buf ret wc n r
                                      else
                                       if (x2 =? 0xef) then
                                        big5_2003_wctomb_j2 buf ret wc n r
                                       else
                                        if (x2 =? 0xf0) then
                                         big5_2003_wctomb_j2 buf ret wc n r
                                        else
                                         if (x2 =? 0xf1) then
                                          big5_2003_wctomb_j2 buf ret wc n r
                                         else
                                          if (x2 =? 0xf2) then
                                           big5_2003_wctomb_j2 buf ret wc n r
                                          else
                                           if (x2 =? 0xf3) then
                                            big5_2003_wctomb_j2 buf ret wc n r
                                           else
                                            if (x2 =? 0xf4) then
                                             big5_2003_wctomb_j2 buf ret wc n r
                                            else
                                             if (x2 =? 0xf5) then
                                              big5_2003_wctomb_j2 buf ret wc n r
                                             else
                                              if (x2 =? 0xf6) then
                                               big5_2003_wctomb_j2 buf ret wc n r
                                              else
                                               if (x2 =? 0xfe) then
                                                if (wc =? 0xfe51) then
                                                 wrb 2%nat buf 0%nat 0xa1 (fun buf =>
                                                 wrb 2%nat buf 1%nat 0x4e (fun buf =>
                                                 let ret := 2 in
                                                 big5_2003_wctomb_j buf ret wc n r))
                                                else
                                                 if (wc =? 0xfe68) then
                                                  wrb 2%nat buf 0%nat 0xa2 (fun buf =>
                                                  wrb 2%nat buf 1%nat 0x42 (fun buf =>
                                                  let ret := 2 in
                                                  big5_2003_wctomb_j buf ret wc n r))
                                                 else
                                                  big5_2003_wctomb_j buf ret wc n r
                                               else
                                                if (x2 =? 0xff) then
                                                 if (wc =? 0xff0f) then
                                                  wrb 2%nat buf 0%nat 0xa1 (fun buf =>
                                                  wrb 2%nat buf 1%nat 0xfe (fun buf =>
                                                  let ret := 2 in
                                                  big5_2003_wctomb_j buf ret wc n r))
                                                 else
                                                  if (wc =? 0xff3b) then
                                                   wrb 2%nat buf 0%nat 0xc6 (fun buf =>
                                                   wrb 2%nat buf 1%nat 0xe4 (fun buf =>
                                                   let ret := 2 in
                                                   big5_2003_wctomb_j buf ret wc n r))
                                                  else
                                                   if (wc =? 0xff3c) then
                                                    wrb 2%nat buf 0%nat 0xa2 (fun buf =>
                                                    wrb 2%nat buf 1%nat 0x40 (fun buf =>
                                                    let ret := 2 in
                                                    big5_2003_wctomb_j buf ret wc n r))
                                                   else
                                                    if (wc =? 0xff3d) then
                                                     wrb 2%nat buf 0%nat 0xc6 (fun buf =>
                                                     wrb 2%nat buf 1%nat 0xe5 (fun buf =>
                                                     let ret := 2 in
                                                     big5_2003_wctomb_j buf ret wc n r))
                                                    else
                                                     if (wc =? 0xff3e) then
                                                      wrb 2%nat buf 0%nat 0xc6 (fun buf =>
                                                      wrb 2%nat buf 1%nat 0xd9 (fun buf =>
                                                      let ret := 2 in
                                                      big5_2003_wctomb_j buf ret wc n r))
                                                     else
                                                      if (wc =? 0xff5e) then
                                                       wrb 2%nat buf 0%nat 0xa1 (fun buf =>
                                                       wrb 2%nat buf 1%nat 0xe3 (fun buf =>
                                                       let ret := 2 in
                                                       big5_2003_wctomb_j buf ret wc n r))
                                                      else
                                                       if (wc =? 0xffe0) then
                                                        wrb 2%nat buf 0%nat 0xa2 (fun buf =>
                                                        wrb 2%nat buf 1%nat 0x46 (fun buf =>
                                                        let ret := 2 in
                                                        big5_2003_wctomb_j buf ret wc n r))
                                                       else
                                                        if (wc =? 0xffe1) then
                                                         wrb 2%nat buf 0%nat 0xa2 (fun buf =>
                                                         wrb 2%nat buf 1%nat 0x47 (fun buf =>
                                                         let ret := 2 in
                                                         big5_2003_wctomb_j buf ret wc n r))
                                                        else
                                                         if (wc =? 0xffe3) then
                                                          wrb 2%nat buf 0%nat 0xa1 (fun buf =>
                                                          wrb 2%nat buf 1%nat 0xc3 (fun buf =>
                                                          let ret := 2 in
                                                          big5_2003_wctomb_j buf ret wc n r))
                                                         else
                                                          if (wc =? 0xffe5) then
                                                           wrb 2%nat buf 0%nat 0xa2 (fun buf =>
                                                           wrb 2%nat buf 1%nat 0x44 (fun buf =>
                                                           let ret := 2 in
                                                           big5_2003_wctomb_j buf ret wc n r))
                                                          else
                                                           if (wc =? 0xff64) then
                                                            Ok ((-1), r)
                                                           else
                                                            big5_2003_wctomb_j buf ret wc n r
                                                else
                                                 big5_2003_wctomb_j buf ret wc n r).

