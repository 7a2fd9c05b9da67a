(** GENERATED by tools/gen.py from /repo/lib/converters; do not edit.
    Converter functions, one definition per basic block that is reached from several places. *)
From Coq Require Import ZArith List Bool.
From Verif Require Import Base Tab_jis Tab_gb Tab_big5 Tab_cns Tab_ks Conv_uni Conv_sb Conv_set_ja Conv_set_zh Conv_set_ko.
Import ListNotations.
Open Scope Z_scope.

(* lib/converters/cp932.h:97-144 cp932_mbtowc *)
Definition cp932_mbtowc (s : list Z) (n : nat) : res (Z * option Z) :=
  let pwc := (None : option Z) in
  rd s 0%nat (fun c =>
  if (c <? 0x80) then
   bind (ascii_mbtowc s n) (fun '(x2, o) =>
   let pwc := oset pwc o in
   Ok (x2, pwc))
  else
   if ((c >=? 0xa1) &&& (c <=? 0xdf)) then
    bind (jisx0201_mbtowc s n) (fun '(x3, o) =>
    let pwc := oset pwc o in
    Ok (x3, pwc))
   else
    let s1 := c in
    if ((((s1 >=? 0x81) &&& (s1 <=? 0x9f)) &&& (negb (s1 =? 0x87))) ||| ((s1 >=? 0xe0) &&& (s1 <=? 0xea))) then
     if (Nat.ltb n 2%nat) then
      Ok ((-2), pwc)
     else
      rd s 1%nat (fun s2 =>
      if (((s2 >=? 0x40) &&& (s2 <=? 0x7e)) ||| ((s2 >=? 0x80) &&& (s2 <=? 0xfc))) then
       let t1 := (if (s1 <? 0xe0) then (s1 - 0x81) else (s1 - 0xc1)) in
       let t2 := (if (s2 <? 0x80) then (s2 - 0x40) else (s2 - 0x41)) in
       let buf := ([] : wlog) in
       wrb 2%nat buf 0%nat (((2 * t1) + (if (t2 <? 0x5e) then 0 else 1)) + 0x21) (fun buf =>
       wrb 2%nat buf 1%nat ((if (t2 <? 0x5e) then t2 else (t2 - 0x5e)) + 0x21) (fun buf =>
       bind (jisx0208_mbtowc (lbuf buf 0%nat 2%nat) 2%nat) (fun '(x5, o) =>
       let pwc := oset pwc o in
       Ok (x5, pwc))))
      else
       Ok ((-1), pwc))
    else
     if (((s1 =? 0x87) ||| ((s1 >=? 0xed) &&& (s1 <=? 0xee))) ||| (s1 >=? 0xfa)) then
      if (Nat.ltb n 2%nat) then
       Ok ((-2), pwc)
      else
       bind (cp932ext_mbtowc s 2%nat) (fun '(x6, o) =>
       let pwc := oset pwc o in
       Ok (x6, pwc))
     else
      if ((s1 >=? 0xf0) &&& (s1 <=? 0xf9)) then
       if (Nat.ltb n 2%nat) then
        Ok ((-2), pwc)
       else
        rd s 1%nat (fun s2 =>
        if (((s2 >=? 0x40) &&& (s2 <=? 0x7e)) ||| ((s2 >=? 0x80) &&& (s2 <=? 0xfc))) then
         let pwc := Some ((0xe000 + (0xbc * (s1 - 0xf0))) + (if (s2 <? 0x80) then (s2 - 0x40) else (s2 - 0x41))) in
         Ok (2, pwc)
        else
         Ok ((-1), pwc))
      else
       Ok ((-1), pwc)).

(* lib/converters/cp932.h:146-272 cp932_wctomb *)
Definition cp932_wctomb_j3 (buf : wlog) (wc : Z) (n : nat) (r : wlog) : res (Z * wlog) :=
  bind (cp932ext_wctomb wc 2%nat) (fun '(ret, l) =>
  lappb 2%nat buf 0%nat l (fun buf =>
  if (negb (ret =? (-1))) then
   if (negb (ret =? 2)) then
    Abort
   else
    if (Nat.ltb n 2%nat) then
     Ok ((-2), r)
    else
     lrd buf 0%nat (fun x9 =>
     let r := wr r 0%nat x9 in
     lrd buf 1%nat (fun x10 =>
     let r := wr r 1%nat x10 in
     Ok (2, r)))
  else
   if ((wc >=? 0xe000) &&& (wc <? 0xe758)) then
    if (Nat.ltb n 2%nat) then
     Ok ((-2), r)
    else
     let c1 := ((wc - 0xe000) / 0xbc) in
     let c2 := ((wc - 0xe000) mod 0xbc) in
     let r := wr r 0%nat (c1 + 0xf0) in
     let r := wr r 1%nat (if (c2 <? 0x3f) then (c2 + 0x40) else (c2 + 0x41)) in
     Ok (2, r)
   else
    if (wc =? 0xff5e) then
     if (Nat.ltb n 2%nat) then
      Ok ((-2), r)
     else
      let r := wr r 0%nat 0x81 in
      let r := wr r 1%nat 0x60 in
      Ok (2, r)
    else
     if (wc =? 0x2225) then
      if (Nat.ltb n 2%nat) then
       Ok ((-2), r)
      else
       let r := wr r 0%nat 0x81 in
       let r := wr r 1%nat 0x61 in
       Ok (2, r)
     else
      if (wc =? 0xff0d) then
       if (Nat.ltb n 2%nat) then
        Ok ((-2), r)
       else
        let r := wr r 0%nat 0x81 in
        let r := wr r 1%nat 0x7c in
        Ok (2, r)
      else
       if (wc =? 0xffe0) then
        if (Nat.ltb n 2%nat) then
         Ok ((-2), r)
        else
         let r := wr r 0%nat 0x81 in
         let r := wr r 1%nat 0x91 in
         Ok (2, r)
       else
        if (wc =? 0xffe1) then
         if (Nat.ltb n 2%nat) then
          Ok ((-2), r)
         else
          let r := wr r 0%nat 0x81 in
          let r := wr r 1%nat 0x92 in
          Ok (2, r)
        else
         Ok ((-1), r))).
(* lib/converters/cp932.h:146-272 cp932_wctomb *)
Definition cp932_wctomb_j2 (buf : wlog) (wc : Z) (n : nat) (r : wlog) : res (Z * wlog) :=
  bind (jisx0208_wctomb wc 2%nat) (fun '(ret, l) =>
  lappb 2%nat buf 0%nat l (fun buf =>
  if (negb (ret =? (-1))) then
   if (negb (ret =? 2)) then
    Abort
   else
    if (Nat.ltb n 2%nat) then
     Ok ((-2), r)
    else
     lrd buf 0%nat (fun c1 =>
     lrd buf 1%nat (fun c2 =>
     if (((c1 >=? 0x21) &&& (c1 <=? 0x74)) &&& ((c2 >=? 0x21) &&& (c2 <=? 0x7e))) then
      let t1 := (Z.shiftr (c1 - 0x21) 1) in
      let t2 := ((if (negb ((Z.land (c1 - 0x21) 1) =? 0)) then 0x5e else 0) + (c2 - 0x21)) in
      let r := wr r 0%nat (if (t1 <? 0x1f) then (t1 + 0x81) else (t1 + 0xc1)) in
      let r := wr r 1%nat (if (t2 <? 0x3f) then (t2 + 0x40) else (t2 + 0x41)) in
      Ok (2, r)
     else
      cp932_wctomb_j3 buf wc n r))
  else
   cp932_wctomb_j3 buf wc n r)).
(* lib/converters/cp932.h:146-272 cp932_wctomb *)
Definition cp932_wctomb_j (buf : wlog) (wc : Z) (n : nat) (r : wlog) : res (Z * wlog) :=
  bind (jisx0201_wctomb wc 1%nat) (fun '(ret, l) =>
  lappb 2%nat buf 0%nat l (fun buf =>
  if (negb (ret =? (-1))) then
   if (negb (ret =? 1)) then
    Abort
   else
    lrd buf 0%nat (fun c =>
    if ((c >=? 0xa1) &&& (c <=? 0xdf)) then
     let r := wr r 0%nat c in
     Ok (1, r)
    else
     cp932_wctomb_j2 buf wc n r)
  else
   cp932_wctomb_j2 buf wc n r)).
(* lib/converters/cp932.h:146-272 cp932_wctomb *)
Definition cp932_wctomb (wc : Z) (n : nat) : res (Z * wlog) :=
  let r := ([] : wlog) in
  let buf := ([] : wlog) in
  bind (ascii_wctomb wc 1%nat) (fun '(ret, l) =>
  lappb 2%nat buf 0%nat l (fun buf =>
  if (negb (ret =? (-1))) then
   if (negb (ret =? 1)) then
    Abort
   else
    lrd buf 0%nat (fun c =>
    if (c <? 0x80) then
     let r := wr r 0%nat c in
     Ok (1, r)
    else
     cp932_wctomb_j buf wc n r)
  else
   cp932_wctomb_j buf wc n r)).

(* lib/converters/euc_jp.h:35-142 euc_jp_mbtowc *)
Definition euc_jp_mbtowc (s : list Z) (n : nat) : res (Z * option Z) :=
  let pwc := (None : option Z) in
  rd s 0%nat (fun c =>
  if (c <? 0x80) then
   bind (ascii_mbtowc s n) (fun '(x2, o) =>
   let pwc := oset pwc o in
   Ok (x2, pwc))
  else
   if ((c >=? 0xa1) &&& (c <? 0xff)) then
    if (Nat.ltb n 2%nat) then
     Ok ((-2), pwc)
    else
     if (c <? 0xf5) then
      rd s 1%nat (fun c2 =>
      if ((c2 >=? 0xa1) &&& (c2 <? 0xff)) then
       let buf := ([] : wlog) in
       wrb 2%nat buf 0%nat (c - 0x80) (fun buf =>
       wrb 2%nat buf 1%nat (c2 - 0x80) (fun buf =>
       bind (jisx0208_mbtowc (lbuf buf 0%nat 2%nat) 2%nat) (fun '(x4, o) =>
       let pwc := oset pwc o in
       Ok (x4, pwc))))
      else
       Ok ((-1), pwc))
     else
      rd s 1%nat (fun c2 =>
      if ((c2 >=? 0xa1) &&& (c2 <? 0xff)) then
       let pwc := Some ((0xe000 + (0x5e * (c - 0xf5))) + (c2 - 0xa1)) in
       Ok (2, pwc)
      else
       Ok ((-1), pwc))
   else
    if (c =? 0x8e) then
     if (Nat.ltb n 2%nat) then
      Ok ((-2), pwc)
     else
      rd s 1%nat (fun c2 =>
      if ((c2 >=? 0xa1) &&& (c2 <? 0xe0)) then
       nsub n 1%nat (fun k1 =>
       bind (jisx0201_mbtowc (skipn 1%nat s) k1) (fun '(ret, o) =>
       let pwc := oset pwc o in
       if (ret =? (-1)) then
        Ok ((-1), pwc)
       else
        if (negb (ret =? 1)) then
         Abort
        else
         Ok (2, pwc)))
      else
       Ok ((-1), pwc))
    else
     if (c =? 0x8f) then
      if (Nat.ltb n 2%nat) then
       Ok ((-2), pwc)
      else
       rd s 1%nat (fun c2 =>
       if ((c2 >=? 0xa1) &&& (c2 <? 0xff)) then
        if (Nat.ltb n 3%nat) then
         Ok ((-2), pwc)
        else
         if (c2 <? 0xf5) then
          rd s 2%nat (fun c3 =>
          if ((c3 >=? 0xa1) &&& (c3 <? 0xff)) then
           let buf := ([] : wlog) in
           wrb 2%nat buf 0%nat (c2 - 0x80) (fun buf =>
           wrb 2%nat buf 1%nat (c3 - 0x80) (fun buf =>
           bind (jisx0212_mbtowc (lbuf buf 0%nat 2%nat) 2%nat) (fun '(ret, o) =>
           let pwc := oset pwc o in
           if (ret =? (-1)) then
            Ok ((-1), pwc)
           else
            if (negb (ret =? 2)) then
             Abort
            else
             Ok (3, pwc))))
          else
           Ok ((-1), pwc))
         else
          rd s 2%nat (fun c3 =>
          if ((c3 >=? 0xa1) &&& (c3 <? 0xff)) then
           let pwc := Some ((0xe3ac + (0x5e * (c2 - 0xf5))) + (c3 - 0xa1)) in
           Ok (3, pwc)
          else
           Ok ((-1), pwc))
       else
        Ok ((-1), pwc))
     else
      Ok ((-1), pwc)).

(* lib/converters/euc_jp.h:144-236 euc_jp_wctomb *)
Definition euc_jp_wctomb_j (buf : wlog) (wc : Z) (n : nat) (r : wlog) : res (Z * wlog) :=
  bind (jisx0212_wctomb wc 2%nat) (fun '(ret, l) =>
  lappb 2%nat buf 0%nat l (fun buf =>
  if (negb (ret =? (-1))) then
   if (negb (ret =? 2)) then
    Abort
   else
    if (Nat.ltb n 3%nat) then
     Ok ((-2), r)
    else
     let r := wr r 0%nat 0x8f in
     lrd buf 0%nat (fun x9 =>
     let r := wr r 1%nat (u8 (x9 + 0x80)) in
     lrd buf 1%nat (fun x10 =>
     let r := wr r 2%nat (u8 (x10 + 0x80)) in
     Ok (3, r)))
  else
   if (wc =? 0xa5) then
    let r := wr r 0%nat 0x5c in
    Ok (1, r)
   else
    if (wc =? 0x203e) then
     let r := wr r 0%nat 0x7e in
     Ok (1, r)
    else
     if ((wc >=? 0xe000) &&& (wc <? 0xe758)) then
      if (wc <? 0xe3ac) then
       if (Nat.ltb n 2%nat) then
        Ok ((-2), r)
       else
        let c1 := ((wc - 0xe000) / 0x5e) in
        let c2 := ((wc - 0xe000) mod 0x5e) in
        let r := wr r 0%nat (c1 + 0xf5) in
        let r := wr r 1%nat (c2 + 0xa1) in
        Ok (2, r)
      else
       if (Nat.ltb n 3%nat) then
        Ok ((-2), r)
       else
        let c1 := ((wc - 0xe3ac) / 0x5e) in
        let c2 := ((wc - 0xe3ac) mod 0x5e) in
        let r := wr r 0%nat 0x8f in
        let r := wr r 1%nat (c1 + 0xf5) in
        let r := wr r 2%nat (c2 + 0xa1) in
        Ok (3, r)
     else
      Ok ((-1), r))).
(* lib/converters/euc_jp.h:144-236 euc_jp_wctomb *)
Definition euc_jp_wctomb (wc : Z) (n : nat) : res (Z * wlog) :=
  let r := ([] : wlog) in
  let buf := ([] : wlog) in
  bind (ascii_wctomb wc n) (fun '(ret, l) =>
  let r := lapp r 0%nat l in
  if (negb (ret =? (-1))) then
   Ok (ret, r)
  else
   bind (jisx0208_wctomb wc 2%nat) (fun '(ret, l) =>
   lappb 2%nat buf 0%nat l (fun buf =>
   if (negb (ret =? (-1))) then
    if (negb (ret =? 2)) then
     Abort
    else
     if (Nat.ltb n 2%nat) then
      Ok ((-2), r)
     else
      lrd buf 0%nat (fun x3 =>
      let r := wr r 0%nat (u8 (x3 + 0x80)) in
      lrd buf 1%nat (fun x4 =>
      let r := wr r 1%nat (u8 (x4 + 0x80)) in
      Ok (2, r)))
   else
    bind (jisx0201_wctomb wc 1%nat) (fun '(ret, l) =>
    lappb 2%nat buf 0%nat l (fun buf =>
    if (negb (ret =? (-1))) then
     lrd buf 0%nat (fun x6 =>
     if (x6 >=? 0x80) then
      if (negb (ret =? 1)) then
       Abort
      else
       if (Nat.ltb n 2%nat) then
        Ok ((-2), r)
       else
        let r := wr r 0%nat 0x8e in
        let r := wr r 1%nat x6 in
        Ok (2, r)
     else
      euc_jp_wctomb_j buf wc n r)
    else
     euc_jp_wctomb_j buf wc n r))))).

(* lib/converters/sjis.h:55-94 sjis_mbtowc *)
Definition sjis_mbtowc (s : list Z) (n : nat) : res (Z * option Z) :=
  let pwc := (None : option Z) in
  rd s 0%nat (fun c =>
  if ((c <? 0x80) ||| ((c >=? 0xa1) &&& (c <=? 0xdf))) then
   bind (jisx0201_mbtowc s n) (fun '(x2, o) =>
   let pwc := oset pwc o in
   Ok (x2, pwc))
  else
   let s1 := c in
   if (((s1 >=? 0x81) &&& (s1 <=? 0x9f)) ||| ((s1 >=? 0xe0) &&& (s1 <=? 0xea))) then
    if (Nat.ltb n 2%nat) then
     Ok ((-2), pwc)
    else
     rd s 1%nat (fun s2 =>
     if (((s2 >=? 0x40) &&& (s2 <=? 0x7e)) ||| ((s2 >=? 0x80) &&& (s2 <=? 0xfc))) then
      let t1 := (if (s1 <? 0xe0) then (s1 - 0x81) else (s1 - 0xc1)) in
      let t2 := (if (s2 <? 0x80) then (s2 - 0x40) else (s2 - 0x41)) in
      let buf := ([] : wlog) in
      wrb 2%nat buf 0%nat (((2 * t1) + (if (t2 <? 0x5e) then 0 else 1)) + 0x21) (fun buf =>
      wrb 2%nat buf 1%nat ((if (t2 <? 0x5e) then t2 else (t2 - 0x5e)) + 0x21) (fun buf =>
      bind (jisx0208_mbtowc (lbuf buf 0%nat 2%nat) 2%nat) (fun '(x4, o) =>
      let pwc := oset pwc o in
      Ok (x4, pwc))))
     else
      Ok ((-1), pwc))
   else
    if ((s1 >=? 0xf0) &&& (s1 <=? 0xf9)) then
     if (Nat.ltb n 2%nat) then
      Ok ((-2), pwc)
     else
      rd s 1%nat (fun s2 =>
      if (((s2 >=? 0x40) &&& (s2 <=? 0x7e)) ||| ((s2 >=? 0x80) &&& (s2 <=? 0xfc))) then
       let pwc := Some ((0xe000 + (0xbc * (s1 - 0xf0))) + (if (s2 <? 0x80) then (s2 - 0x40) else (s2 - 0x41))) in
       Ok (2, pwc)
      else
       Ok ((-1), pwc))
    else
     Ok ((-1), pwc)).

(* lib/converters/sjis.h:96-152 sjis_wctomb *)
Definition sjis_wctomb_j2 (wc : Z) (n : nat) (r : wlog) : res (Z * wlog) :=
  if ((wc >=? 0xe000) &&& (wc <? 0xe758)) then
   if (Nat.ltb n 2%nat) then
    Ok ((-2), r)
   else
    let c1 := ((wc - 0xe000) / 0xbc) in
    let c2 := ((wc - 0xe000) mod 0xbc) in
    let r := wr r 0%nat (c1 + 0xf0) in
    let r := wr r 1%nat (if (c2 <? 0x3f) then (c2 + 0x40) else (c2 + 0x41)) in
    Ok (2, r)
  else
   Ok ((-1), r).
(* lib/converters/sjis.h:96-152 sjis_wctomb *)
Definition sjis_wctomb_j (buf : wlog) (wc : Z) (n : nat) (r : wlog) : res (Z * wlog) :=
  bind (jisx0208_wctomb wc 2%nat) (fun '(ret, l) =>
  lappb 2%nat buf 0%nat l (fun buf =>
  if (negb (ret =? (-1))) then
   if (negb (ret =? 2)) then
    Abort
   else
    if (Nat.ltb n 2%nat) then
     Ok ((-2), r)
    else
     lrd buf 0%nat (fun c1 =>
     lrd buf 1%nat (fun c2 =>
     if (((c1 >=? 0x21) &&& (c1 <=? 0x74)) &&& ((c2 >=? 0x21) &&& (c2 <=? 0x7e))) then
      let t1 := (Z.shiftr (c1 - 0x21) 1) in
      let t2 := ((if (negb ((Z.land (c1 - 0x21) 1) =? 0)) then 0x5e else 0) + (c2 - 0x21)) in
      let r := wr r 0%nat (if (t1 <? 0x1f) then (t1 + 0x81) else (t1 + 0xc1)) in
      let r := wr r 1%nat (if (t2 <? 0x3f) then (t2 + 0x40) else (t2 + 0x41)) in
      Ok (2, r)
     else
      sjis_wctomb_j2 wc n r))
  else
   sjis_wctomb_j2 wc n r)).
(* lib/converters/sjis.h:96-152 sjis_wctomb *)
Definition sjis_wctomb (wc : Z) (n : nat) : res (Z * wlog) :=
  let r := ([] : wlog) in
  let buf := ([] : wlog) in
  bind (jisx0201_wctomb wc 1%nat) (fun '(ret, l) =>
  lappb 2%nat buf 0%nat l (fun buf =>
  if (negb (ret =? (-1))) then
   if (negb (ret =? 1)) then
    Abort
   else
    lrd buf 0%nat (fun c =>
    if ((c <? 0x80) ||| ((c >=? 0xa1) &&& (c <=? 0xdf))) then
     let r := wr r 0%nat c in
     Ok (1, r)
    else
     sjis_wctomb_j buf wc n r)
  else
   sjis_wctomb_j buf wc n r)).

(* lib/converters/big5hkscs1999.h:58-118 big5hkscs1999_mbtowc *)
Definition big5hkscs1999_mbtowc_j (c : Z) (s : list Z) (n : nat) (pwc : option Z) (ist : Z) (ibo : Z) : res (Z * option Z * Z * Z) :=
  bind (hkscs1999_mbtowc s n) (fun '(ret, o) =>
  let pwc := oset pwc o in
  if (negb (ret =? (-1))) then
   Ok (ret, pwc, ist, ibo)
  else
   if (c =? 0x88) then
    if (Nat.ltb n 2%nat) then
     Ok ((-2), pwc, ist, ibo)
    else
     rd s 1%nat (fun c2 =>
     if ((((c2 =? 0x62) ||| (c2 =? 0x64)) ||| (c2 =? 0xa3)) ||| (c2 =? 0xa5)) then
      let wc1 := ((Z.shiftl (Z.shiftr c2 3) 2) + 0x9a) in
      let wc2 := ((Z.shiftl (Z.land c2 6) 2) + 0x2fc) in
      let pwc := Some wc1 in
      let ist := wc2 in
      Ok (2, pwc, ist, ibo)
     else
      Ok ((-1), pwc, ist, ibo))
   else
    Ok ((-1), pwc, ist, ibo)).
(* lib/converters/big5hkscs1999.h:58-118 big5hkscs1999_mbtowc *)
Definition big5hkscs1999_mbtowc (s : list Z) (n : nat) (ist : Z) (ibo : Z) : res (Z * option Z * Z * Z) :=
  let pwc := (None : option Z) in
  let last_wc := ist in
  if (negb (last_wc =? 0)) then
   let ist := 0 in
   let pwc := Some last_wc in
   Ok (0, pwc, ist, ibo)
  else
   rd s 0%nat (fun c =>
   if (c <? 0x80) then
    bind (ascii_mbtowc s n) (fun '(x2, o) =>
    let pwc := oset pwc o in
    Ok (x2, pwc, ist, ibo))
   else
    if ((c >=? 0xa1) &&& (c <? 0xff)) then
     if (Nat.ltb n 2%nat) then
      Ok ((-2), pwc, ist, ibo)
     else
      rd s 1%nat (fun c2 =>
      if (((c2 >=? 0x40) &&& (c2 <? 0x7f)) ||| ((c2 >=? 0xa1) &&& (c2 <? 0xff))) then
       if (negb (((c =? 0xc6) &&& (c2 >=? 0xa1)) ||| (c =? 0xc7))) then
        bind (big5_mbtowc s 2%nat) (fun '(ret, o) =>
        let pwc := oset pwc o in
        if (negb (ret =? (-1))) then
         Ok (ret, pwc, ist, ibo)
        else
         big5hkscs1999_mbtowc_j c s n pwc ist ibo)
       else
        big5hkscs1999_mbtowc_j c s n pwc ist ibo
      else
       big5hkscs1999_mbtowc_j c s n pwc ist ibo)
    else
     big5hkscs1999_mbtowc_j c s n pwc ist ibo).

(* lib/converters/big5hkscs1999.h:122-216 big5hkscs1999_wctomb *)
Definition big5hkscs1999_wctomb_j3 (buf : wlog) (count : Z) (wc : Z) (n : nat) (ro : nat) (r : wlog) (ost : Z) : res (Z * wlog * Z) :=
  bind (hkscs1999_wctomb wc 2%nat) (fun '(ret, l) =>
  lappb 2%nat buf 0%nat l (fun buf =>
  if (negb (ret =? (-1))) then
   if (negb (ret =? 2)) then
    Abort
   else
    if ((Z.land wc 0xffffffdf) =? 0xca) then
     lrd buf 0%nat (fun x8 =>
     if (x8 =? 0x88) then
      lrd buf 1%nat (fun x9 =>
      if (x9 =? 0x66) then
       let ost := x9 in
       Ok ((count + 0), r, ost)
      else
       if (x9 =? 0xa7) then
        let ost := x9 in
        Ok ((count + 0), r, ost)
       else
        Abort)
     else
      Abort)
    else
     if (Nat.leb (Z.to_nat (count + 2)) n) then
      lrd buf 0%nat (fun x12 =>
      let r := wr r ro x12 in
      lrd buf 1%nat (fun x13 =>
      let r := wr r (Nat.add ro 1%nat) x13 in
      let ost := 0 in
      Ok ((count + 2), r, ost)))
     else
      Ok ((-2), r, ost)
  else
   Ok ((-1), r, ost))).
(* lib/converters/big5hkscs1999.h:122-216 big5hkscs1999_wctomb *)
Definition big5hkscs1999_wctomb_j2 (buf : wlog) (count : Z) (wc : Z) (x2 : Z) (n : nat) (ro : nat) (r : wlog) (ost : Z) : res (Z * wlog * Z) :=
  if (x2 =? 0xc7) then
   big5hkscs1999_wctomb_j3 buf count wc n ro r ost
  else
   if (Nat.leb (Z.to_nat (count + 2)) n) then
    let r := wr r ro x2 in
    lrd buf 1%nat (fun x6 =>
    let r := wr r (Nat.add ro 1%nat) x6 in
    let ost := 0 in
    Ok ((count + 2), r, ost))
   else
    Ok ((-2), r, ost).
(* lib/converters/big5hkscs1999.h:122-216 big5hkscs1999_wctomb *)
Definition big5hkscs1999_wctomb_j (count : Z) (wc : Z) (n : nat) (ro : nat) (r : wlog) (ost : Z) : res (Z * wlog * Z) :=
  if (wc <? 0x80) then
   if (Nat.ltb (Z.to_nat count) n) then
    let r := wr r ro wc in
    let ost := 0 in
    Ok ((count + 1), r, ost)
   else
    Ok ((-2), r, ost)
  else
   let buf := ([] : wlog) in
   bind (big5_wctomb wc 2%nat) (fun '(ret, l) =>
   lappb 2%nat buf 0%nat l (fun buf =>
   if (negb (ret =? (-1))) then
    if (negb (ret =? 2)) then
     Abort
    else
     lrd buf 0%nat (fun x2 =>
     if (x2 =? 0xc6) then
      lrd buf 1%nat (fun x3 =>
      if (x3 >=? 0xa1) then
       big5hkscs1999_wctomb_j3 buf count wc n ro r ost
      else
       big5hkscs1999_wctomb_j2 buf count wc x2 n ro r ost)
     else
      big5hkscs1999_wctomb_j2 buf count wc x2 n ro r ost)
   else
    big5hkscs1999_wctomb_j3 buf count wc n ro r ost)).
(* lib/converters/big5hkscs1999.h:122-216 big5hkscs1999_wctomb *)
Definition big5hkscs1999_wctomb (wc : Z) (n : nat) (ost : Z) : res (Z * wlog * Z) :=
  let r := ([] : wlog) in
  let ro := 0%nat in
  let count := 0 in
  let last := (u8 ost) in
  if (negb (last =? 0)) then
   if ((wc =? 0x304) ||| (wc =? 0x30c)) then
    if (Nat.leb 2%nat n) then
     let r := wr r ro 0x88 in
     let r := wr r (Nat.add ro 1%nat) (u8 (u32 ((last + (Z.shiftr (Z.land wc 0x18) 2)) - 4))) in
     let ost := 0 in
     Ok (2, r, ost)
    else
     Ok ((-2), r, ost)
   else
    if (Nat.ltb n 2%nat) then
     Ok ((-2), r, ost)
    else
     let r := wr r ro 0x88 in
     let r := wr r (Nat.add ro 1%nat) last in
     let ro := (Nat.add ro 2%nat) in
     let count := 2 in
     big5hkscs1999_wctomb_j count wc n ro r ost
  else
   big5hkscs1999_wctomb_j count wc n ro r ost.

(* lib/converters/big5hkscs1999.h:218-233 big5hkscs1999_reset *)
Definition big5hkscs1999_reset (n : nat) (ost : Z) : res (Z * wlog * Z) :=
  let r := ([] : wlog) in
  let last := (u8 ost) in
  if (negb (last =? 0)) then
   if (Nat.ltb n 2%nat) then
    Ok ((-2), r, ost)
   else
    let r := wr r 0%nat 0x88 in
    let r := wr r 1%nat last in
    Ok (2, r, ost)
  else
   Ok (0, r, ost).

(* lib/converters/big5hkscs2001.h:60-125 big5hkscs2001_mbtowc *)
Definition big5hkscs2001_mbtowc_j (c : Z) (s : list Z) (n : nat) (pwc : option Z) (ist : Z) (ibo : Z) : res (Z * option Z * Z * Z) :=
  bind (hkscs1999_mbtowc s n) (fun '(ret, o) =>
  let pwc := oset pwc o in
  if (negb (ret =? (-1))) then
   Ok (ret, pwc, ist, ibo)
  else
   bind (hkscs2001_mbtowc s n) (fun '(ret, o) =>
   let pwc := oset pwc o in
   if (negb (ret =? (-1))) then
    Ok (ret, pwc, ist, ibo)
   else
    if (c =? 0x88) then
     if (Nat.ltb n 2%nat) then
      Ok ((-2), pwc, ist, ibo)
     else
      rd s 1%nat (fun c2 =>
      if ((((c2 =? 0x62) ||| (c2 =? 0x64)) ||| (c2 =? 0xa3)) ||| (c2 =? 0xa5)) then
       let wc1 := ((Z.shiftl (Z.shiftr c2 3) 2) + 0x9a) in
       let wc2 := ((Z.shiftl (Z.land c2 6) 2) + 0x2fc) in
       let pwc := Some wc1 in
       let ist := wc2 in
       Ok (2, pwc, ist, ibo)
      else
       Ok ((-1), pwc, ist, ibo))
    else
     Ok ((-1), pwc, ist, ibo))).
(* lib/converters/big5hkscs2001.h:60-125 big5hkscs2001_mbtowc *)
Definition big5hkscs2001_mbtowc (s : list Z) (n : nat) (ist : Z) (ibo : Z) : res (Z * option Z * Z * Z) :=
  let pwc := (None : option Z) in
  let last_wc := ist in
  if (negb (last_wc =? 0)) then
   let ist := 0 in
   let pwc := Some last_wc in
   Ok (0, pwc, ist, ibo)
  else
   rd s 0%nat (fun c =>
   if (c <? 0x80) then
    bind (ascii_mbtowc s n) (fun '(x2, o) =>
    let pwc := oset pwc o in
    Ok (x2, pwc, ist, ibo))
   else
    if ((c >=? 0xa1) &&& (c <? 0xff)) then
     if (Nat.ltb n 2%nat) then
      Ok ((-2), pwc, ist, ibo)
     else
      rd s 1%nat (fun c2 =>
      if (((c2 >=? 0x40) &&& (c2 <? 0x7f)) ||| ((c2 >=? 0xa1) &&& (c2 <? 0xff))) then
       if (negb (((c =? 0xc6) &&& (c2 >=? 0xa1)) ||| (c =? 0xc7))) then
        bind (big5_mbtowc s 2%nat) (fun '(ret, o) =>
        let pwc := oset pwc o in
        if (negb (ret =? (-1))) then
         Ok (ret, pwc, ist, ibo)
        else
         big5hkscs2001_mbtowc_j c s n pwc ist ibo)
       else
        big5hkscs2001_mbtowc_j c s n pwc ist ibo
      else
       big5hkscs2001_mbtowc_j c s n pwc ist ibo)
    else
     big5hkscs2001_mbtowc_j c s n pwc ist ibo).

(* lib/converters/big5hkscs2001.h:129-238 big5hkscs2001_wctomb *)
Definition big5hkscs2001_wctomb_j3 (buf : wlog) (count : Z) (wc : Z) (n : nat) (ro : nat) (r : wlog) (ost : Z) : res (Z * wlog * Z) :=
  bind (hkscs1999_wctomb wc 2%nat) (fun '(ret, l) =>
  lappb 2%nat buf 0%nat l (fun buf =>
  if (negb (ret =? (-1))) then
   if (negb (ret =? 2)) then
    Abort
   else
    if ((Z.land wc 0xffffffdf) =? 0xca) then
     lrd buf 0%nat (fun x8 =>
     if (x8 =? 0x88) then
      lrd buf 1%nat (fun x9 =>
      if (x9 =? 0x66) then
       let ost := x9 in
       Ok ((count + 0), r, ost)
      else
       if (x9 =? 0xa7) then
        let ost := x9 in
        Ok ((count + 0), r, ost)
       else
        Abort)
     else
      Abort)
    else
     if (Nat.leb (Z.to_nat (count + 2)) n) then
      lrd buf 0%nat (fun x12 =>
      let r := wr r ro x12 in
      lrd buf 1%nat (fun x13 =>
      let r := wr r (Nat.add ro 1%nat) x13 in
      let ost := 0 in
      Ok ((count + 2), r, ost)))
     else
      Ok ((-2), r, ost)
  else
   bind (hkscs2001_wctomb wc 2%nat) (fun '(ret, l) =>
   lappb 2%nat buf 0%nat l (fun buf =>
   if (negb (ret =? (-1))) then
    if (negb (ret =? 2)) then
     Abort
    else
     if (Nat.leb (Z.to_nat (count + 2)) n) then
      lrd buf 0%nat (fun x15 =>
      let r := wr r ro x15 in
      lrd buf 1%nat (fun x16 =>
      let r := wr r (Nat.add ro 1%nat) x16 in
      let ost := 0 in
      Ok ((count + 2), r, ost)))
     else
      Ok ((-2), r, ost)
   else
    Ok ((-1), r, ost))))).
(* lib/converters/big5hkscs2001.h:129-238 big5hkscs2001_wctomb *)
Definition big5hkscs2001_wctomb_j2 (buf : wlog) (count : Z) (wc : Z) (x2 : Z) (n : nat) (ro : nat) (r : wlog) (ost : Z) : res (Z * wlog * Z) :=
  if (x2 =? 0xc7) then
   big5hkscs2001_wctomb_j3 buf count wc n ro r ost
  else
   if (Nat.leb (Z.to_nat (count + 2)) n) then
    let r := wr r ro x2 in
    lrd buf 1%nat (fun x6 =>
    let r := wr r (Nat.add ro 1%nat) x6 in
    let ost := 0 in
    Ok ((count + 2), r, ost))
   else
    Ok ((-2), r, ost).
(* lib/converters/big5hkscs2001.h:129-238 big5hkscs2001_wctomb *)
Definition big5hkscs2001_wctomb_j (count : Z) (wc : Z) (n : nat) (ro : nat) (r : wlog) (ost : Z) : res (Z * wlog * Z) :=
  if (wc <? 0x80) then
   if (Nat.ltb (Z.to_nat count) n) then
    let r := wr r ro wc in
    let ost := 0 in
    Ok ((count + 1), r, ost)
   else
    Ok ((-2), r, ost)
  else
   let buf := ([] : wlog) in
   bind (big5_wctomb wc 2%nat) (fun '(ret, l) =>
   lappb 2%nat buf 0%nat l (fun buf =>
   if (negb (ret =? (-1))) then
    if (negb (ret =? 2)) then
     Abort
    else
     lrd buf 0%nat (fun x2 =>
     if (x2 =? 0xc6) then
      lrd buf 1%nat (fun x3 =>
      if (x3 >=? 0xa1) then
       big5hkscs2001_wctomb_j3 buf count wc n ro r ost
      else
       big5hkscs2001_wctomb_j2 buf count wc x2 n ro r ost)
     else
      big5hkscs2001_wctomb_j2 buf count wc x2 n ro r ost)
   else
    big5hkscs2001_wctomb_j3 buf count wc n ro r ost)).
(* lib/converters/big5hkscs2001.h:129-238 big5hkscs2001_wctomb *)
Definition big5hkscs2001_wctomb (wc : Z) (n : nat) (ost : Z) : res (Z * wlog * Z) :=
  let r := ([] : wlog) in
  let ro := 0%nat in
  let count := 0 in
  let last := (u8 ost) in
  if (negb (last =? 0)) then
   if ((wc =? 0x304) ||| (wc =? 0x30c)) then
    if (Nat.leb 2%nat n) then
     let r := wr r ro 0x88 in
     let r := wr r (Nat.add ro 1%nat) (u8 (u32 ((last + (Z.shiftr (Z.land wc 0x18) 2)) - 4))) in
     let ost := 0 in
     Ok (2, r, ost)
    else
     Ok ((-2), r, ost)
   else
    if (Nat.ltb n 2%nat) then
     Ok ((-2), r, ost)
    else
     let r := wr r ro 0x88 in
     let r := wr r (Nat.add ro 1%nat) last in
     let ro := (Nat.add ro 2%nat) in
     let count := 2 in
     big5hkscs2001_wctomb_j count wc n ro r ost
  else
   big5hkscs2001_wctomb_j count wc n ro r ost.

(* lib/converters/big5hkscs2001.h:240-255 big5hkscs2001_reset *)
Definition big5hkscs2001_reset (n : nat) (ost : Z) : res (Z * wlog * Z) :=
  let r := ([] : wlog) in
  let last := (u8 ost) in
  if (negb (last =? 0)) then
   if (Nat.ltb n 2%nat) then
    Ok ((-2), r, ost)
   else
    let r := wr r 0%nat 0x88 in
    let r := wr r 1%nat last in
    Ok (2, r, ost)
  else
   Ok (0, r, ost).

(* lib/converters/big5hkscs2004.h:62-132 big5hkscs2004_mbtowc *)
Definition big5hkscs2004_mbtowc_j (c : Z) (s : list Z) (n : nat) (pwc : option Z) (ist : Z) (ibo : Z) : res (Z * option Z * Z * Z) :=
  bind (hkscs1999_mbtowc s n) (fun '(ret, o) =>
  let pwc := oset pwc o in
  if (negb (ret =? (-1))) then
   Ok (ret, pwc, ist, ibo)
  else
   bind (hkscs2001_mbtowc s n) (fun '(ret, o) =>
   let pwc := oset pwc o in
   if (negb (ret =? (-1))) then
    Ok (ret, pwc, ist, ibo)
   else
    bind (hkscs2004_mbtowc s n) (fun '(ret, o) =>
    let pwc := oset pwc o in
    if (negb (ret =? (-1))) then
     Ok (ret, pwc, ist, ibo)
    else
     if (c =? 0x88) then
      if (Nat.ltb n 2%nat) then
       Ok ((-2), pwc, ist, ibo)
      else
       rd s 1%nat (fun c2 =>
       if ((((c2 =? 0x62) ||| (c2 =? 0x64)) ||| (c2 =? 0xa3)) ||| (c2 =? 0xa5)) then
        let wc1 := ((Z.shiftl (Z.shiftr c2 3) 2) + 0x9a) in
        let wc2 := ((Z.shiftl (Z.land c2 6) 2) + 0x2fc) in
        let pwc := Some wc1 in
        let ist := wc2 in
        Ok (2, pwc, ist, ibo)
       else
        Ok ((-1), pwc, ist, ibo))
     else
      Ok ((-1), pwc, ist, ibo)))).
(* lib/converters/big5hkscs2004.h:62-132 big5hkscs2004_mbtowc *)
Definition big5hkscs2004_mbtowc (s : list Z) (n : nat) (ist : Z) (ibo : Z) : res (Z * option Z * Z * Z) :=
  let pwc := (None : option Z) in
  let last_wc := ist in
  if (negb (last_wc =? 0)) then
   let ist := 0 in
   let pwc := Some last_wc in
   Ok (0, pwc, ist, ibo)
  else
   rd s 0%nat (fun c =>
   if (c <? 0x80) then
    bind (ascii_mbtowc s n) (fun '(x2, o) =>
    let pwc := oset pwc o in
    Ok (x2, pwc, ist, ibo))
   else
    if ((c >=? 0xa1) &&& (c <? 0xff)) then
     if (Nat.ltb n 2%nat) then
      Ok ((-2), pwc, ist, ibo)
     else
      rd s 1%nat (fun c2 =>
      if (((c2 >=? 0x40) &&& (c2 <? 0x7f)) ||| ((c2 >=? 0xa1) &&& (c2 <? 0xff))) then
       if (negb (((c =? 0xc6) &&& (c2 >=? 0xa1)) ||| (c =? 0xc7))) then
        bind (big5_mbtowc s 2%nat) (fun '(ret, o) =>
        let pwc := oset pwc o in
        if (negb (ret =? (-1))) then
         Ok (ret, pwc, ist, ibo)
        else
         big5hkscs2004_mbtowc_j c s n pwc ist ibo)
       else
        big5hkscs2004_mbtowc_j c s n pwc ist ibo
      else
       big5hkscs2004_mbtowc_j c s n pwc ist ibo)
    else
     big5hkscs2004_mbtowc_j c s n pwc ist ibo).

(* lib/converters/big5hkscs2004.h:136-260 big5hkscs2004_wctomb *)
Definition big5hkscs2004_wctomb_j3 (buf : wlog) (count : Z) (wc : Z) (n : nat) (ro : nat) (r : wlog) (ost : Z) : res (Z * wlog * Z) :=
  bind (hkscs1999_wctomb wc 2%nat) (fun '(ret, l) =>
  lappb 2%nat buf 0%nat l (fun buf =>
  if (negb (ret =? (-1))) then
   if (negb (ret =? 2)) then
    Abort
   else
    if ((Z.land wc 0xffffffdf) =? 0xca) then
     lrd buf 0%nat (fun x8 =>
     if (x8 =? 0x88) then
      lrd buf 1%nat (fun x9 =>
      if (x9 =? 0x66) then
       let ost := x9 in
       Ok ((count + 0), r, ost)
      else
       if (x9 =? 0xa7) then
        let ost := x9 in
        Ok ((count + 0), r, ost)
       else
        Abort)
     else
      Abort)
    else
     if (Nat.leb (Z.to_nat (count + 2)) n) then
      lrd buf 0%nat (fun x12 =>
      let r := wr r ro x12 in
      lrd buf 1%nat (fun x13 =>
      let r := wr r (Nat.add ro 1%nat) x13 in
      let ost := 0 in
      Ok ((count + 2), r, ost)))
     else
      Ok ((-2), r, ost)
  else
   bind (hkscs2001_wctomb wc 2%nat) (fun '(ret, l) =>
   lappb 2%nat buf 0%nat l (fun buf =>
   if (negb (ret =? (-1))) then
    if (negb (ret =? 2)) then
     Abort
    else
     if (Nat.leb (Z.to_nat (count + 2)) n) then
      lrd buf 0%nat (fun x15 =>
      let r := wr r ro x15 in
      lrd buf 1%nat (fun x16 =>
      let r := wr r (Nat.add ro 1%nat) x16 in
      let ost := 0 in
      Ok ((count + 2), r, ost)))
     else
      Ok ((-2), r, ost)
   else
    bind (hkscs2004_wctomb wc 2%nat) (fun '(ret, l) =>
    lappb 2%nat buf 0%nat l (fun buf =>
    if (negb (ret =? (-1))) then
     if (negb (ret =? 2)) then
      Abort
     else
      if (Nat.leb (Z.to_nat (count + 2)) n) then
       lrd buf 0%nat (fun x18 =>
       let r := wr r ro x18 in
       lrd buf 1%nat (fun x19 =>
       let r := wr r (Nat.add ro 1%nat) x19 in
       let ost := 0 in
       Ok ((count + 2), r, ost)))
      else
       Ok ((-2), r, ost)
    else
     Ok ((-1), r, ost))))))).
(* lib/converters/big5hkscs2004.h:136-260 big5hkscs2004_wctomb *)
Definition big5hkscs2004_wctomb_j2 (buf : wlog) (count : Z) (wc : Z) (x2 : Z) (n : nat) (ro : nat) (r : wlog) (ost : Z) : res (Z * wlog * Z) :=
  if (x2 =? 0xc7) then
   big5hkscs2004_wctomb_j3 buf count wc n ro r ost
  else
   if (Nat.leb (Z.to_nat (count + 2)) n) then
    let r := wr r ro x2 in
    lrd buf 1%nat (fun x6 =>
    let r := wr r (Nat.add ro 1%nat) x6 in
    let ost := 0 in
    Ok ((count + 2), r, ost))
   else
    Ok ((-2), r, ost).
(* lib/converters/big5hkscs2004.h:136-260 big5hkscs2004_wctomb *)
Definition big5hkscs2004_wctomb_j (count : Z) (wc : Z) (n : nat) (ro : nat) (r : wlog) (ost : Z) : res (Z * wlog * Z) :=
  if (wc <? 0x80) then
   if (Nat.ltb (Z.to_nat count) n) then
    let r := wr r ro wc in
    let ost := 0 in
    Ok ((count + 1), r, ost)
   else
    Ok ((-2), r, ost)
  else
   let buf := ([] : wlog) in
   bind (big5_wctomb wc 2%nat) (fun '(ret, l) =>
   lappb 2%nat buf 0%nat l (fun buf =>
   if (negb (ret =? (-1))) then
    if (negb (ret =? 2)) then
     Abort
    else
     lrd buf 0%nat (fun x2 =>
     if (x2 =? 0xc6) then
      lrd buf 1%nat (fun x3 =>
      if (x3 >=? 0xa1) then
       big5hkscs2004_wctomb_j3 buf count wc n ro r ost
      else
       big5hkscs2004_wctomb_j2 buf count wc x2 n ro r ost)
     else
      big5hkscs2004_wctomb_j2 buf count wc x2 n ro r ost)
   else
    big5hkscs2004_wctomb_j3 buf count wc n ro r ost)).
(* lib/converters/big5hkscs2004.h:136-260 big5hkscs2004_wctomb *)
Definition big5hkscs2004_wctomb (wc : Z) (n : nat) (ost : Z) : res (Z * wlog * Z) :=
  let r := ([] : wlog) in
  let ro := 0%nat in
  let count := 0 in
  let last := (u8 ost) in
  if (negb (last =? 0)) then
   if ((wc =? 0x304) ||| (wc =? 0x30c)) then
    if (Nat.leb 2%nat n) then
     let r := wr r ro 0x88 in
     let r := wr r (Nat.add ro 1%nat) (u8 (u32 ((last + (Z.shiftr (Z.land wc 0x18) 2)) - 4))) in
     let ost := 0 in
     Ok (2, r, ost)
    else
     Ok ((-2), r, ost)
   else
    if (Nat.ltb n 2%nat) then
     Ok ((-2), r, ost)
    else
     let r := wr r ro 0x88 in
     let r := wr r (Nat.add ro 1%nat) last in
     let ro := (Nat.add ro 2%nat) in
     let count := 2 in
     big5hkscs2004_wctomb_j count wc n ro r ost
  else
   big5hkscs2004_wctomb_j count wc n ro r ost.

(* lib/converters/big5hkscs2004.h:262-277 big5hkscs2004_reset *)
Definition big5hkscs2004_reset (n : nat) (ost : Z) : res (Z * wlog * Z) :=
  let r := ([] : wlog) in
  let last := (u8 ost) in
  if (negb (last =? 0)) then
   if (Nat.ltb n 2%nat) then
    Ok ((-2), r, ost)
   else
    let r := wr r 0%nat 0x88 in
    let r := wr r 1%nat last in
    Ok (2, r, ost)
  else
   Ok (0, r, ost).

(* lib/converters/big5hkscs2008.h:62-137 big5hkscs2008_mbtowc *)
Definition big5hkscs2008_mbtowc_j (c : Z) (s : list Z) (n : nat) (pwc : option Z) (ist : Z) (ibo : Z) : res (Z * option Z * Z * Z) :=
  bind (hkscs1999_mbtowc s n) (fun '(ret, o) =>
  let pwc := oset pwc o in
  if (negb (ret =? (-1))) then
   Ok (ret, pwc, ist, ibo)
  else
   bind (hkscs2001_mbtowc s n) (fun '(ret, o) =>
   let pwc := oset pwc o in
   if (negb (ret =? (-1))) then
    Ok (ret, pwc, ist, ibo)
   else
    bind (hkscs2004_mbtowc s n) (fun '(ret, o) =>
    let pwc := oset pwc o in
    if (negb (ret =? (-1))) then
     Ok (ret, pwc, ist, ibo)
    else
     bind (hkscs2008_mbtowc s n) (fun '(ret, o) =>
     let pwc := oset pwc o in
     if (negb (ret =? (-1))) then
      Ok (ret, pwc, ist, ibo)
     else
      if (c =? 0x88) then
       if (Nat.ltb n 2%nat) then
        Ok ((-2), pwc, ist, ibo)
       else
        rd s 1%nat (fun c2 =>
        if ((((c2 =? 0x62) ||| (c2 =? 0x64)) ||| (c2 =? 0xa3)) ||| (c2 =? 0xa5)) then
         let wc1 := ((Z.shiftl (Z.shiftr c2 3) 2) + 0x9a) in
         let wc2 := ((Z.shiftl (Z.land c2 6) 2) + 0x2fc) in
         let pwc := Some wc1 in
         let ist := wc2 in
         Ok (2, pwc, ist, ibo)
        else
         Ok ((-1), pwc, ist, ibo))
      else
       Ok ((-1), pwc, ist, ibo))))).
(* lib/converters/big5hkscs2008.h:62-137 big5hkscs2008_mbtowc *)
Definition big5hkscs2008_mbtowc (s : list Z) (n : nat) (ist : Z) (ibo : Z) : res (Z * option Z * Z * Z) :=
  let pwc := (None : option Z) in
  let last_wc := ist in
  if (negb (last_wc =? 0)) then
   let ist := 0 in
   let pwc := Some last_wc in
   Ok (0, pwc, ist, ibo)
  else
   rd s 0%nat (fun c =>
   if (c <? 0x80) then
    bind (ascii_mbtowc s n) (fun '(x2, o) =>
    let pwc := oset pwc o in
    Ok (x2, pwc, ist, ibo))
   else
    if ((c >=? 0xa1) &&& (c <? 0xff)) then
     if (Nat.ltb n 2%nat) then
      Ok ((-2), pwc, ist, ibo)
     else
      rd s 1%nat (fun c2 =>
      if (((c2 >=? 0x40) &&& (c2 <? 0x7f)) ||| ((c2 >=? 0xa1) &&& (c2 <? 0xff))) then
       if (negb (((c =? 0xc6) &&& (c2 >=? 0xa1)) ||| (c =? 0xc7))) then
        bind (big5_mbtowc s 2%nat) (fun '(ret, o) =>
        let pwc := oset pwc o in
        if (negb (ret =? (-1))) then
         Ok (ret, pwc, ist, ibo)
        else
         big5hkscs2008_mbtowc_j c s n pwc ist ibo)
       else
        big5hkscs2008_mbtowc_j c s n pwc ist ibo
      else
       big5hkscs2008_mbtowc_j c s n pwc ist ibo)
    else
     big5hkscs2008_mbtowc_j c s n pwc ist ibo).

(* lib/converters/big5hkscs2008.h:141-280 big5hkscs2008_wctomb *)
Definition big5hkscs2008_wctomb_j3 (buf : wlog) (count : Z) (wc : Z) (n : nat) (ro : nat) (r : wlog) (ost : Z) : res (Z * wlog * Z) :=
  bind (hkscs1999_wctomb wc 2%nat) (fun '(ret, l) =>
  lappb 2%nat buf 0%nat l (fun buf =>
  if (negb (ret =? (-1))) then
   if (negb (ret =? 2)) then
    Abort
   else
    if ((Z.land wc 0xffffffdf) =? 0xca) then
     lrd buf 0%nat (fun x8 =>
     if (x8 =? 0x88) then
      lrd buf 1%nat (fun x9 =>
      if (x9 =? 0x66) then
       let ost := x9 in
       Ok ((count + 0), r, ost)
      else
       if (x9 =? 0xa7) then
        let ost := x9 in
        Ok ((count + 0), r, ost)
       else
        Abort)
     else
      Abort)
    else
     if (Nat.leb (Z.to_nat (count + 2)) n) then
      lrd buf 0%nat (fun x12 =>
      let r := wr r ro x12 in
      lrd buf 1%nat (fun x13 =>
      let r := wr r (Nat.add ro 1%nat) x13 in
      let ost := 0 in
      Ok ((count + 2), r, ost)))
     else
      Ok ((-2), r, ost)
  else
   bind (hkscs2001_wctomb wc 2%nat) (fun '(ret, l) =>
   lappb 2%nat buf 0%nat l (fun buf =>
   if (negb (ret =? (-1))) then
    if (negb (ret =? 2)) then
     Abort
    else
     if (Nat.leb (Z.to_nat (count + 2)) n) then
      lrd buf 0%nat (fun x15 =>
      let r := wr r ro x15 in
      lrd buf 1%nat (fun x16 =>
      let r := wr r (Nat.add ro 1%nat) x16 in
      let ost := 0 in
      Ok ((count + 2), r, ost)))
     else
      Ok ((-2), r, ost)
   else
    bind (hkscs2004_wctomb wc 2%nat) (fun '(ret, l) =>
    lappb 2%nat buf 0%nat l (fun buf =>
    if (negb (ret =? (-1))) then
     if (negb (ret =? 2)) then
      Abort
     else
      if (Nat.leb (Z.to_nat (count + 2)) n) then
       lrd buf 0%nat (fun x18 =>
       let r := wr r ro x18 in
       lrd buf 1%nat (fun x19 =>
       let r := wr r (Nat.add ro 1%nat) x19 in
       let ost := 0 in
       Ok ((count + 2), r, ost)))
      else
       Ok ((-2), r, ost)
    else
     bind (hkscs2008_wctomb wc 2%nat) (fun '(ret, l) =>
     lappb 2%nat buf 0%nat l (fun buf =>
     if (negb (ret =? (-1))) then
      if (negb (ret =? 2)) then
       Abort
      else
       if (Nat.leb (Z.to_nat (count + 2)) n) then
        lrd buf 0%nat (fun x21 =>
        let r := wr r ro x21 in
        lrd buf 1%nat (fun x22 =>
        let r := wr r (Nat.add ro 1%nat) x22 in
        let ost := 0 in
        Ok ((count + 2), r, ost)))
       else
        Ok ((-2), r, ost)
     else
      Ok ((-1), r, ost))))))))).
(* lib/converters/big5hkscs2008.h:141-280 big5hkscs2008_wctomb *)
Definition big5hkscs2008_wctomb_j2 (buf : wlog) (count : Z) (wc : Z) (x2 : Z) (n : nat) (ro : nat) (r : wlog) (ost : Z) : res (Z * wlog * Z) :=
  if (x2 =? 0xc7) then
   big5hkscs2008_wctomb_j3 buf count wc n ro r ost
  else
   if (Nat.leb (Z.to_nat (count + 2)) n) then
    let r := wr r ro x2 in
    lrd buf 1%nat (fun x6 =>
    let r := wr r (Nat.add ro 1%nat) x6 in
    let ost := 0 in
    Ok ((count + 2), r, ost))
   else
    Ok ((-2), r, ost).
(* lib/converters/big5hkscs2008.h:141-280 big5hkscs2008_wctomb *)
Definition big5hkscs2008_wctomb_j (count : Z) (wc : Z) (n : nat) (ro : nat) (r : wlog) (ost : Z) : res (Z * wlog * Z) :=
  if (wc <? 0x80) then
   if (Nat.ltb (Z.to_nat count) n) then
    let r := wr r ro wc in
    let ost := 0 in
    Ok ((count + 1), r, ost)
   else
    Ok ((-2), r, ost)
  else
   let buf := ([] : wlog) in
   bind (big5_wctomb wc 2%nat) (fun '(ret, l) =>
   lappb 2%nat buf 0%nat l (fun buf =>
   if (negb (ret =? (-1))) then
    if (negb (ret =? 2)) then
     Abort
    else
     lrd buf 0%nat (fun x2 =>
     if (x2 =? 0xc6) then
      lrd buf 1%nat (fun x3 =>
      if (x3 >=? 0xa1) then
       big5hkscs2008_wctomb_j3 buf count wc n ro r ost
      else
       big5hkscs2008_wctomb_j2 buf count wc x2 n ro r ost)
     else
      big5hkscs2008_wctomb_j2 buf count wc x2 n ro r ost)
   else
    big5hkscs2008_wctomb_j3 buf count wc n ro r ost)).
(* lib/converters/big5hkscs2008.h:141-280 big5hkscs2008_wctomb *)
Definition big5hkscs2008_wctomb (wc : Z) (n : nat) (ost : Z) : res (Z * wlog * Z) :=
  let r := ([] : wlog) in
  let ro := 0%nat in
  let count := 0 in
  let last := (u8 ost) in
  if (negb (last =? 0)) then
   if ((wc =? 0x304) ||| (wc =? 0x30c)) then
    if (Nat.leb 2%nat n) then
     let r := wr r ro 0x88 in
     let r := wr r (Nat.add ro 1%nat) (u8 (u32 ((last + (Z.shiftr (Z.land wc 0x18) 2)) - 4))) in
     let ost := 0 in
     Ok (2, r, ost)
    else
     Ok ((-2), r, ost)
   else
    if (Nat.ltb n 2%nat) then
     Ok ((-2), r, ost)
    else
     let r := wr r ro 0x88 in
     let r := wr r (Nat.add ro 1%nat) last in
     let ro := (Nat.add ro 2%nat) in
     let count := 2 in
     big5hkscs2008_wctomb_j count wc n ro r ost
  else
   big5hkscs2008_wctomb_j count wc n ro r ost.

(* lib/converters/big5hkscs2008.h:282-297 big5hkscs2008_reset *)
Definition big5hkscs2008_reset (n : nat) (ost : Z) : res (Z * wlog * Z) :=
  let r := ([] : wlog) in
  let last := (u8 ost) in
  if (negb (last =? 0)) then
   if (Nat.ltb n 2%nat) then
    Ok ((-2), r, ost)
   else
    let r := wr r 0%nat 0x88 in
    let r := wr r 1%nat last in
    Ok (2, r, ost)
  else
   Ok (0, r, ost).

(* lib/converters/ces_big5.h:34-54 ces_big5_mbtowc *)
Definition ces_big5_mbtowc (s : list Z) (n : nat) : res (Z * option Z) :=
  let pwc := (None : option Z) in
  rd s 0%nat (fun c =>
  if (c <? 0x80) then
   bind (ascii_mbtowc s n) (fun '(x2, o) =>
   let pwc := oset pwc o in
   Ok (x2, pwc))
  else
   if ((c >=? 0xa1) &&& (c <? 0xff)) then
    if (Nat.ltb n 2%nat) then
     Ok ((-2), pwc)
    else
     rd s 1%nat (fun c2 =>
     if (((c2 >=? 0x40) &&& (c2 <? 0x7f)) ||| ((c2 >=? 0xa1) &&& (c2 <? 0xff))) then
      bind (big5_mbtowc s 2%nat) (fun '(x4, o) =>
      let pwc := oset pwc o in
      Ok (x4, pwc))
     else
      Ok ((-1), pwc))
   else
    Ok ((-1), pwc)).

(* lib/converters/ces_big5.h:56-80 ces_big5_wctomb *)
Definition ces_big5_wctomb (wc : Z) (n : nat) : res (Z * wlog) :=
  let r := ([] : wlog) in
  let buf := ([] : wlog) in
  bind (ascii_wctomb wc n) (fun '(ret, l) =>
  let r := lapp r 0%nat l in
  if (negb (ret =? (-1))) then
   Ok (ret, r)
  else
   bind (big5_wctomb wc 2%nat) (fun '(ret, l) =>
   lappb 2%nat buf 0%nat l (fun buf =>
   if (negb (ret =? (-1))) then
    if (negb (ret =? 2)) then
     Abort
    else
     if (Nat.ltb n 2%nat) then
      Ok ((-2), r)
     else
      lrd buf 0%nat (fun x3 =>
      let r := wr r 0%nat x3 in
      lrd buf 1%nat (fun x4 =>
      let r := wr r 1%nat x4 in
      Ok (2, r)))
   else
    Ok ((-1), r)))).

(* lib/converters/ces_gbk.h:34-49 ces_gbk_mbtowc *)
Definition ces_gbk_mbtowc (s : list Z) (n : nat) : res (Z * option Z) :=
  let pwc := (None : option Z) in
  rd s 0%nat (fun c =>
  if (c <? 0x80) then
   bind (ascii_mbtowc s n) (fun '(x2, o) =>
   let pwc := oset pwc o in
   Ok (x2, pwc))
  else
   if ((c >=? 0x81) &&& (c <? 0xff)) then
    if (Nat.ltb n 2%nat) then
     Ok ((-2), pwc)
    else
     bind (gbk_mbtowc s 2%nat) (fun '(x3, o) =>
     let pwc := oset pwc o in
     Ok (x3, pwc))
   else
    Ok ((-1), pwc)).

(* lib/converters/ces_gbk.h:51-75 ces_gbk_wctomb *)
Definition ces_gbk_wctomb (wc : Z) (n : nat) : res (Z * wlog) :=
  let r := ([] : wlog) in
  let buf := ([] : wlog) in
  bind (ascii_wctomb wc n) (fun '(ret, l) =>
  let r := lapp r 0%nat l in
  if (negb (ret =? (-1))) then
   Ok (ret, r)
  else
   bind (gbk_wctomb wc 2%nat) (fun '(ret, l) =>
   lappb 2%nat buf 0%nat l (fun buf =>
   if (negb (ret =? (-1))) then
    if (negb (ret =? 2)) then
     Abort
    else
     if (Nat.ltb n 2%nat) then
      Ok ((-2), r)
     else
      lrd buf 0%nat (fun x3 =>
      let r := wr r 0%nat x3 in
      lrd buf 1%nat (fun x4 =>
      let r := wr r 1%nat x4 in
      Ok (2, r)))
   else
    Ok ((-1), r)))).

(* lib/converters/cp936.h:56-101 cp936_mbtowc *)
Definition cp936_mbtowc (s : list Z) (n : nat) : res (Z * option Z) :=
  let pwc := (None : option Z) in
  bind (ces_gbk_mbtowc s n) (fun '(ret, o) =>
  let pwc := oset pwc o in
  if (negb (ret =? (-1))) then
   Ok (ret, pwc)
  else
   rd s 0%nat (fun c =>
   if (c =? 0x80) then
    let pwc := Some 0x20ac in
    Ok (1, pwc)
   else
    if ((c >=? 0xa1) &&& (c <=? 0xa2)) then
     if (Nat.ltb n 2%nat) then
      Ok ((-2), pwc)
     else
      rd s 1%nat (fun c2 =>
      if (((c2 >=? 0x40) &&& (c2 <? 0x7f)) ||| ((c2 >=? 0x80) &&& (c2 <? 0xa1))) then
       let pwc := Some ((0xe4c6 + (0x60 * (c - 0xa1))) + (c2 - (if (c2 >=? 0x80) then 0x41 else 0x40))) in
       Ok (2, pwc)
      else
       Ok ((-1), pwc))
    else
     if (((c >=? 0xaa) &&& (c <? 0xb0)) ||| ((c >=? 0xf8) &&& (c <? 0xff))) then
      if (Nat.ltb n 2%nat) then
       Ok ((-2), pwc)
      else
       rd s 1%nat (fun c2 =>
       if ((c2 >=? 0xa1) &&& (c2 <? 0xff)) then
        let pwc := Some ((0xe000 + (0x5e * (c - (if (c >=? 0xf8) then 0xf2 else 0xaa)))) + (c2 - 0xa1)) in
        Ok (2, pwc)
       else
        Ok ((-1), pwc))
     else
      Ok ((-1), pwc))).

(* lib/converters/cp936.h:103-142 cp936_wctomb *)
Definition cp936_wctomb (wc : Z) (n : nat) : res (Z * wlog) :=
  let r := ([] : wlog) in
  bind (ces_gbk_wctomb wc n) (fun '(ret, l) =>
  let r := lapp r 0%nat l in
  if (negb (ret =? (-1))) then
   Ok (ret, r)
  else
   if ((wc >=? 0xe000) &&& (wc <? 0xe586)) then
    if (Nat.ltb n 2%nat) then
     Ok ((-2), r)
    else
     if (wc <? 0xe4c6) then
      let i := (wc - 0xe000) in
      let c1 := (i / 0x5e) in
      let c2 := (i mod 0x5e) in
      let r := wr r 0%nat (c1 + (if (c1 <? 6) then 0xaa else 0xf2)) in
      let r := wr r 1%nat (c2 + 0xa1) in
      Ok (2, r)
     else
      let i := (wc - 0xe4c6) in
      let c1 := (i / 0x60) in
      let c2 := (i mod 0x60) in
      let r := wr r 0%nat (c1 + 0xa1) in
      let r := wr r 1%nat (c2 + (if (c2 <? 0x3f) then 0x40 else 0x41)) in
      Ok (2, r)
   else
    if (wc =? 0x20ac) then
     let r := wr r 0%nat 0x80 in
     Ok (1, r)
    else
     Ok ((-1), r)).

(* lib/converters/cp950.h:139-201 cp950_mbtowc *)
Definition cp950_mbtowc_j3 (c : Z) (s : list Z) (pwc : option Z) : res (Z * option Z) :=
  if (c =? 0xf9) then
   bind (cp950ext_mbtowc s 2%nat) (fun '(ret, o) =>
   let pwc := oset pwc o in
   if (negb (ret =? (-1))) then
    Ok (ret, pwc)
   else
    Ok ((-1), pwc))
  else
   Ok ((-1), pwc).
(* lib/converters/cp950.h:139-201 cp950_mbtowc *)
Definition cp950_mbtowc_j2 (c : Z) (c2 : Z) (s : list Z) (pwc : option Z) : res (Z * option Z) :=
  if ((c =? 0xa3) &&& (c2 =? 0xe1)) then
   let pwc := Some 0x20ac in
   Ok (2, pwc)
  else
   if (c >=? 0xfa) then
    let pwc := Some ((0xe000 + (0x9d * (c - 0xfa))) + (c2 - (if (c2 >=? 0xa1) then 0x62 else 0x40))) in
    Ok (2, pwc)
   else
    cp950_mbtowc_j3 c s pwc.
(* lib/converters/cp950.h:139-201 cp950_mbtowc *)
Definition cp950_mbtowc_j (c : Z) (c2 : Z) (s : list Z) (pwc : option Z) : res (Z * option Z) :=
  if (negb (((c =? 0xc6) &&& (c2 >=? 0xa1)) ||| (c =? 0xc7))) then
   bind (big5_mbtowc s 2%nat) (fun '(ret, o) =>
   let pwc := oset pwc o in
   if (negb (ret =? (-1))) then
    Ok (ret, pwc)
   else
    cp950_mbtowc_j2 c c2 s pwc)
  else
   cp950_mbtowc_j2 c c2 s pwc.
(* lib/converters/cp950.h:139-201 cp950_mbtowc *)
Definition cp950_mbtowc (s : list Z) (n : nat) : res (Z * option Z) :=
  let pwc := (None : option Z) in
  rd s 0%nat (fun c =>
  if (c <? 0x80) then
   bind (ascii_mbtowc s n) (fun '(x2, o) =>
   let pwc := oset pwc o in
   Ok (x2, pwc))
  else
   if ((c >=? 0x81) &&& (c <? 0xff)) then
    if (Nat.ltb n 2%nat) then
     Ok ((-2), pwc)
    else
     rd s 1%nat (fun c2 =>
     if (((c2 >=? 0x40) &&& (c2 <? 0x7f)) ||| ((c2 >=? 0xa1) &&& (c2 <? 0xff))) then
      if (c >=? 0xa1) then
       if (c <? 0xa3) then
        let i := (u32 ((0x9d * (c - 0xa1)) + (c2 - (if (c2 >=? 0xa1) then 0x62 else 0x40)))) in
        tget cp950_2uni_pagea1 i (fun wc =>
        if (negb (wc =? 0xfffd)) then
         let pwc := Some wc in
         Ok (2, pwc)
        else
         cp950_mbtowc_j c c2 s pwc)
       else
        cp950_mbtowc_j c c2 s pwc
      else
       let pwc := Some (((if (c >=? 0x8e) then 0xdb18 else 0xeeb8) + (0x9d * (c - 0x81))) + (c2 - (if (c2 >=? 0xa1) then 0x62 else 0x40))) in
       Ok (2, pwc)
     else
      cp950_mbtowc_j3 c s pwc)
   else
    Ok ((-1), pwc)).

(* lib/converters/cp950.h:203-426 cp950_wctomb *)
Definition cp950_wctomb_j5 (buf : wlog) (wc : Z) (n : nat) (r : wlog) : res (Z * wlog) :=
  bind (cp950ext_wctomb wc 2%nat) (fun '(ret, l) =>
  lappb 2%nat buf 0%nat l (fun buf =>
  if (negb (ret =? (-1))) then
   if (negb (ret =? 2)) then
    Abort
   else
    if (Nat.ltb n 2%nat) then
     Ok ((-2), r)
    else
     lrd buf 0%nat (fun x10 =>
     let r := wr r 0%nat x10 in
     lrd buf 1%nat (fun x11 =>
     let r := wr r 1%nat x11 in
     Ok (2, r)))
  else
   Ok ((-1), r))).
(* lib/converters/cp950.h:203-426 cp950_wctomb *)
Definition cp950_wctomb_j4 (buf : wlog) (wc : Z) (x4 : Z) (n : nat) (r : wlog) : res (Z * wlog) :=
  if (x4 =? 0xc7) then
   cp950_wctomb_j5 buf wc n r
  else
   if (Nat.ltb n 2%nat) then
    Ok ((-2), r)
   else
    let r := wr r 0%nat x4 in
    lrd buf 1%nat (fun x8 =>
    let r := wr r 1%nat x8 in
    Ok (2, r)).
(* lib/converters/cp950.h:203-426 cp950_wctomb *)
Definition cp950_wctomb_j3 (buf : wlog) (ret : Z) (wc : Z) (n : nat) (r : wlog) : res (Z * wlog) :=
  if (negb (ret =? (-1))) then
   if (negb (ret =? 2)) then
    Abort
   else
    lrd buf 0%nat (fun x4 =>
    if (x4 =? 0xc6) then
     lrd buf 1%nat (fun x5 =>
     if (x5 >=? 0xa1) then
      cp950_wctomb_j5 buf wc n r
     else
      cp950_wctomb_j4 buf wc x4 n r)
    else
     cp950_wctomb_j4 buf wc x4 n r)
  else
   cp950_wctomb_j5 buf wc n r.
(* lib/converters/cp950.h:203-426 cp950_wctomb *)
Definition cp950_wctomb_j (buf : wlog) (ret : Z) (wc : Z) (n : nat) (r : wlog) : res (Z * wlog) :=
  if (ret =? (-1)) then
   bind (big5_wctomb wc 2%nat) (fun '(ret, l) =>
   lappb 2%nat buf 0%nat l (fun buf =>
   cp950_wctomb_j3 buf ret wc n r))
  else
   cp950_wctomb_j3 buf ret wc n r.
(* lib/converters/cp950.h:203-426 cp950_wctomb *)
Definition cp950_wctomb_j2 (buf : wlog) (ret : Z) (wc : Z) (n : nat) (r : wlog) : res (Z * wlog) :=
  let i := (u32 (wc - 0xe000)) in
  if (i <? 0x16b1) then
   let c1 := (i / 0x9d) in
   let c2 := (i mod 0x9d) in
   wrb 2%nat buf 0%nat (u8 (c1 + (if (c1 <? 5) then 0xfa else (if (c1 <? 0x18) then 0x89 else 0x69)))) (fun buf =>
   wrb 2%nat buf 1%nat (c2 + (if (c2 <? 0x3f) then 0x40 else 0x62)) (fun buf =>
   let ret := 2 in
   cp950_wctomb_j buf ret wc n r))
  else
   cp950_wctomb_j buf ret wc n r.
(* lib/converters/cp950.h:203-426 cp950_wctomb *)
Definition cp950_wctomb (wc : Z) (n : nat) : res (Z * wlog) :=
  let r := ([] : wlog) in
  let buf := ([] : wlog) in
  bind (ascii_wctomb wc n) (fun '(ret, l) =>
  let r := lapp r 0%nat l in
  if (negb (ret =? (-1))) then
   Ok (ret, r)
  else
   let x2 := (Z.shiftr wc 8) in
   if (x2 =? 0) then
    if (wc =? 0xaf) then
     wrb 2%nat buf 0%nat 0xa1 (fun buf =>
     wrb 2%nat buf 1%nat 0xc2 (fun buf =>
     let ret := 2 in
     cp950_wctomb_j buf ret wc n r))
    else
     if (((wc =? 0xa2) ||| (wc =? 0xa3)) ||| (wc =? 0xa4)) then
      Ok ((-1), r)
     else
      cp950_wctomb_j buf ret wc n r
   else
    if (x2 =? 2) then
     if (wc =? 0x2cd) then
      wrb 2%nat buf 0%nat 0xa1 (fun buf =>
      wrb 2%nat buf 1%nat 0xc5 (fun buf =>
      let ret := 2 in
      cp950_wctomb_j buf ret wc n r))
     else
      cp950_wctomb_j buf ret wc n r
    else
     if (x2 =? 0x20) then
      if (wc =? 0x2027) then
       wrb 2%nat buf 0%nat 0xa1 (fun buf =>
       wrb 2%nat buf 1%nat 0x45 (fun buf =>
       let ret := 2 in
       cp950_wctomb_j buf ret wc n r))
      else
       if (wc =? 0x20ac) then
        wrb 2%nat buf 0%nat 0xa3 (fun buf =>
        wrb 2%nat buf 1%nat 0xe1 (fun buf =>
        let ret := 2 in
        cp950_wctomb_j buf ret wc n r))
       else
        if ((wc =? 0x2022) ||| (wc =? 0x203e)) then
         Ok ((-1), r)
        else
         cp950_wctomb_j buf ret wc n r
     else
      if (x2 =? 0x22) then
       if (wc =? 0x2215) then
        wrb 2%nat buf 0%nat 0xa2 (fun buf =>
        wrb 2%nat buf 1%nat 0x41 (fun buf =>
        let ret := 2 in
        cp950_wctomb_j buf ret wc n r))
       else
        if (wc =? 0x2295) then
         wrb 2%nat buf 0%nat 0xa1 (fun buf =>
         wrb 2%nat buf 1%nat 0xf2 (fun buf =>
         let ret := 2 in
         cp950_wctomb_j buf ret wc n r))
        else
         if (wc =? 0x2299) then
          wrb 2%nat buf 0%nat 0xa1 (fun buf =>
          wrb 2%nat buf 1%nat 0xf3 (fun buf =>
          let ret := 2 in
          cp950_wctomb_j buf ret wc n r))
         else
          if (wc =? 0x223c) then
           Ok ((-1), r)
          else
           cp950_wctomb_j buf ret wc n r
      else
       if (x2 =? 0x25) then
        if (wc =? 0x2574) then
         wrb 2%nat buf 0%nat 0xa1 (fun buf =>
         wrb 2%nat buf 1%nat 0x5a (fun buf =>
         let ret := 2 in
         cp950_wctomb_j buf ret wc n r))
        else
         cp950_wctomb_j buf ret wc n r
       else
        if (x2 =? 0x26) then
         if ((wc =? 0x2609) ||| (wc =? 0x2641)) then
          Ok ((-1), r)
         else
          cp950_wctomb_j buf ret wc n r
        else
         if (x2 =? 0xe0) then
          cp950_wctomb_j2 buf ret wc n r
         else
          if (x2 =? 0xe1) then
           cp950_wctomb_j2 buf ret wc n r
          else
           if (x2 =? 0xe2) then
            cp950_wctomb_j2 buf ret wc n r
           else
            if (x2 =? 0xe3) then
             cp950_wctomb_j2 buf ret wc n r
            else
             if (x2 =? 0xe4) then
              cp950_wctomb_j2 buf ret wc n r
             else
              if (x2 =? 0xe5) then
               cp950_wctomb_j2 buf ret wc n r
              else
               if (x2 =? 0xe6) then
                cp950_wctomb_j2 buf ret wc n r
               else
                if (x2 =? 0xe7) then
                 cp950_wctomb_j2 buf ret wc n r
                else
                 if (x2 =? 0xe8) then
                  cp950_wctomb_j2 buf ret wc n r
                 else
                  if (x2 =? 0xe9) then
                   cp950_wctomb_j2 buf ret wc n r
                  else
                   if (x2 =? 0xea) then
                    cp950_wctomb_j2 buf ret wc n r
                   else
                    if (x2 =? 0xeb) then
                     cp950_wctomb_j2 buf ret wc n r
                    else
                     if (x2 =? 0xec) then
                      cp950_wctomb_j2 buf ret wc n r
                     else
                      if (x2 =? 0xed) then
                       cp950_wctomb_j2 buf ret wc n r
                      else
                       if (x2 =? 0xee) then
                        cp950_wctomb_j2 buf ret wc n r
                       else
                        if (x2 =? 0xef) then
                         cp950_wctomb_j2 buf ret wc n r
                        else
                         if (x2 =? 0xf0) then
                          cp950_wctomb_j2 buf ret wc n r
                         else
                          if (x2 =? 0xf1) then
                           cp950_wctomb_j2 buf ret wc n r
                          else
                           if (x2 =? 0xf2) then
                            cp950_wctomb_j2 buf ret wc n r
                           else
                            if (x2 =? 0xf3) then
                             cp950_wctomb_j2 buf ret wc n r
                            else
                             if (x2 =? 0xf4) then
                              cp950_wctomb_j2 buf ret wc n r
                             else
                              if (x2 =? 0xf5) then
                               cp950_wctomb_j2 buf ret wc n r
                              else
                               if (x2 =? 0xf6) then
                                cp950_wctomb_j2 buf ret wc n r
                               else
                                if (x2 =? 0xfe) then
                                 if (wc =? 0xfe51) then
                                  wrb 2%nat buf 0%nat 0xa1 (fun buf =>
                                  wrb 2%nat buf 1%nat 0x4e (fun buf =>
                                  let ret := 2 in
                                  cp950_wctomb_j buf ret wc n r))
                                 else
                                  if (wc =? 0xfe68) then
                                   wrb 2%nat buf 0%nat 0xa2 (fun buf =>
                                   wrb 2%nat buf 1%nat 0x42 (fun buf =>
                                   let ret := 2 in
                                   cp950_wctomb_j buf ret wc n r))
                                  else
                                   cp950_wctomb_j buf ret wc n r
                                else
                                 if (x2 =? 0xff) then
                                  if (wc =? 0xff0f) then
                                   wrb 2%nat buf 0%nat 0xa1 (fun buf =>
                                   wrb 2%nat buf 1%nat 0xfe (fun buf =>
                                   let ret := 2 in
                                   cp950_wctomb_j buf ret wc n r))
                                  else
                                   if (wc =? 0xff3c) then
                                    wrb 2%nat buf 0%nat 0xa2 (fun buf =>
                                    wrb 2%nat buf 1%nat 0x40 (fun buf =>
                                    let ret := 2 in
                                    cp950_wctomb_j buf ret wc n r))
                                   else
                                    if (wc =? 0xff5e) then
                                     wrb 2%nat buf 0%nat 0xa1 (fun buf =>
                                     wrb 2%nat buf 1%nat 0xe3 (fun buf =>
                                     let ret := 2 in
                                     cp950_wctomb_j buf ret wc n r))
                                    else
                                     if (wc =? 0xffe0) then
                                      wrb 2%nat buf 0%nat 0xa2 (fun buf =>
                                      wrb 2%nat buf 1%nat 0x46 (fun buf =>
                                      let ret := 2 in
                                      cp950_wctomb_j buf ret wc n r))
                                     else
                                      if (wc =? 0xffe1) then
                                       wrb 2%nat buf 0%nat 0xa2 (fun buf =>
                                       wrb 2%nat buf 1%nat 0x47 (fun buf =>
                                       let ret := 2 in
                                       cp950_wctomb_j buf ret wc n r))
                                      else
                                       if (wc =? 0xffe3) then
                                        wrb 2%nat buf 0%nat 0xa1 (fun buf =>
                                        wrb 2%nat buf 1%nat 0xc3 (fun buf =>
                                        let ret := 2 in
                                        cp950_wctomb_j buf ret wc n r))
                                       else
                                        if (wc =? 0xffe5) then
                                         wrb 2%nat buf 0%nat 0xa2 (fun buf =>
                                         wrb 2%nat buf 1%nat 0x44 (fun buf =>
                                         let ret := 2 in
                                         cp950_wctomb_j buf ret wc n r))
                                        else
                                         if (wc =? 0xff64) then
                                          Ok ((-1), r)
                                         else
                                          cp950_wctomb_j buf ret wc n r
                                 else
                                  cp950_wctomb_j buf ret wc n r).

(* lib/converters/euc_cn.h:34-59 euc_cn_mbtowc *)
Definition euc_cn_mbtowc (s : list Z) (n : nat) : res (Z * option Z) :=
  let pwc := (None : option Z) in
  rd s 0%nat (fun c =>
  if (c <? 0x80) then
   bind (ascii_mbtowc s n) (fun '(x2, o) =>
   let pwc := oset pwc o in
   Ok (x2, pwc))
  else
   if ((c >=? 0xa1) &&& (c <? 0xff)) then
    if (Nat.ltb n 2%nat) then
     Ok ((-2), pwc)
    else
     rd s 1%nat (fun c2 =>
     if ((c2 >=? 0xa1) &&& (c2 <? 0xff)) then
      let buf := ([] : wlog) in
      wrb 2%nat buf 0%nat (c - 0x80) (fun buf =>
      wrb 2%nat buf 1%nat (c2 - 0x80) (fun buf =>
      bind (gb2312_mbtowc (lbuf buf 0%nat 2%nat) 2%nat) (fun '(x4, o) =>
      let pwc := oset pwc o in
      Ok (x4, pwc))))
     else
      Ok ((-1), pwc))
   else
    Ok ((-1), pwc)).

(* lib/converters/euc_cn.h:61-85 euc_cn_wctomb *)
Definition euc_cn_wctomb (wc : Z) (n : nat) : res (Z * wlog) :=
  let r := ([] : wlog) in
  let buf := ([] : wlog) in
  bind (ascii_wctomb wc n) (fun '(ret, l) =>
  let r := lapp r 0%nat l in
  if (negb (ret =? (-1))) then
   Ok (ret, r)
  else
   bind (gb2312_wctomb wc 2%nat) (fun '(ret, l) =>
   lappb 2%nat buf 0%nat l (fun buf =>
   if (negb (ret =? (-1))) then
    if (negb (ret =? 2)) then
     Abort
    else
     if (Nat.ltb n 2%nat) then
      Ok ((-2), r)
     else
      lrd buf 0%nat (fun x3 =>
      let r := wr r 0%nat (u8 (x3 + 0x80)) in
      lrd buf 1%nat (fun x4 =>
      let r := wr r 1%nat (u8 (x4 + 0x80)) in
      Ok (2, r)))
   else
    Ok ((-1), r)))).

(* lib/converters/euc_tw.h:42-122 euc_tw_mbtowc *)
Definition euc_tw_mbtowc_j (ret : Z) (pwc : option Z) : res (Z * option Z) :=
  if (ret =? (-1)) then
   Ok ((-1), pwc)
  else
   if (negb (ret =? 2)) then
    Abort
   else
    Ok (4, pwc).
(* lib/converters/euc_tw.h:42-122 euc_tw_mbtowc *)
Definition euc_tw_mbtowc (s : list Z) (n : nat) : res (Z * option Z) :=
  let pwc := (None : option Z) in
  rd s 0%nat (fun c =>
  if (c <? 0x80) then
   bind (ascii_mbtowc s n) (fun '(x2, o) =>
   let pwc := oset pwc o in
   Ok (x2, pwc))
  else
   if ((c >=? 0xa1) &&& (c <? 0xff)) then
    if (Nat.ltb n 2%nat) then
     Ok ((-2), pwc)
    else
     rd s 1%nat (fun c2 =>
     if ((c2 >=? 0xa1) &&& (c2 <? 0xff)) then
      let buf := ([] : wlog) in
      wrb 2%nat buf 0%nat (c - 0x80) (fun buf =>
      wrb 2%nat buf 1%nat (c2 - 0x80) (fun buf =>
      bind (cns11643_1_mbtowc (lbuf buf 0%nat 2%nat) 2%nat) (fun '(x4, o) =>
      let pwc := oset pwc o in
      Ok (x4, pwc))))
     else
      Ok ((-1), pwc))
   else
    if (c =? 0x8e) then
     if (Nat.ltb n 4%nat) then
      Ok ((-2), pwc)
     else
      rd s 1%nat (fun c2 =>
      if ((c2 >=? 0xa1) &&& (c2 <=? 0xb0)) then
       rd s 2%nat (fun c3 =>
       rd s 3%nat (fun c4 =>
       if ((((c3 >=? 0xa1) &&& (c3 <? 0xff)) &&& (c4 >=? 0xa1)) &&& (c4 <? 0xff)) then
        let buf := ([] : wlog) in
        wrb 2%nat buf 0%nat (c3 - 0x80) (fun buf =>
        wrb 2%nat buf 1%nat (c4 - 0x80) (fun buf =>
        let x8 := (c2 - 0xa0) in
        if (x8 =? 1) then
         bind (cns11643_1_mbtowc (lbuf buf 0%nat 2%nat) 2%nat) (fun '(ret, o) =>
         let pwc := oset pwc o in
         euc_tw_mbtowc_j ret pwc)
        else
         if (x8 =? 2) then
          bind (cns11643_2_mbtowc (lbuf buf 0%nat 2%nat) 2%nat) (fun '(ret, o) =>
          let pwc := oset pwc o in
          euc_tw_mbtowc_j ret pwc)
         else
          if (x8 =? 3) then
           bind (cns11643_3_mbtowc (lbuf buf 0%nat 2%nat) 2%nat) (fun '(ret, o) =>
           let pwc := oset pwc o in
           euc_tw_mbtowc_j ret pwc)
          else
           if (x8 =? 4) then
            bind (cns11643_4_mbtowc (lbuf buf 0%nat 2%nat) 2%nat) (fun '(ret, o) =>
            let pwc := oset pwc o in
            euc_tw_mbtowc_j ret pwc)
           else
            if (x8 =? 5) then
             bind (cns11643_5_mbtowc (lbuf buf 0%nat 2%nat) 2%nat) (fun '(ret, o) =>
             let pwc := oset pwc o in
             euc_tw_mbtowc_j ret pwc)
            else
             if (x8 =? 6) then
              bind (cns11643_6_mbtowc (lbuf buf 0%nat 2%nat) 2%nat) (fun '(ret, o) =>
              let pwc := oset pwc o in
              euc_tw_mbtowc_j ret pwc)
             else
              if (x8 =? 7) then
               bind (cns11643_7_mbtowc (lbuf buf 0%nat 2%nat) 2%nat) (fun '(ret, o) =>
               let pwc := oset pwc o in
               euc_tw_mbtowc_j ret pwc)
              else
               if (x8 =? 0xf) then
                bind (cns11643_15_mbtowc (lbuf buf 0%nat 2%nat) 2%nat) (fun '(ret, o) =>
                let pwc := oset pwc o in
                euc_tw_mbtowc_j ret pwc)
               else
                Ok ((-1), pwc)))
       else
        Ok ((-1), pwc)))
      else
       Ok ((-1), pwc))
    else
     Ok ((-1), pwc)).

(* lib/converters/euc_tw.h:124-161 euc_tw_wctomb *)
Definition euc_tw_wctomb (wc : Z) (n : nat) : res (Z * wlog) :=
  let r := ([] : wlog) in
  let buf := ([] : wlog) in
  bind (ascii_wctomb wc n) (fun '(ret, l) =>
  let r := lapp r 0%nat l in
  if (negb (ret =? (-1))) then
   Ok (ret, r)
  else
   bind (cns11643_inv_wctomb wc 3%nat) (fun '(ret, l) =>
   lappb 3%nat buf 0%nat l (fun buf =>
   if (negb (ret =? (-1))) then
    if (negb (ret =? 3)) then
     Abort
    else
     lrd buf 0%nat (fun x3 =>
     if (x3 =? 1) then
      if (Nat.ltb n 2%nat) then
       Ok ((-2), r)
      else
       lrd buf 1%nat (fun x4 =>
       let r := wr r 0%nat (u8 (x4 + 0x80)) in
       lrd buf 2%nat (fun x5 =>
       let r := wr r 1%nat (u8 (x5 + 0x80)) in
       Ok (2, r)))
     else
      if (Nat.ltb n 4%nat) then
       Ok ((-2), r)
      else
       let r := wr r 0%nat 0x8e in
       let r := wr r 1%nat (u8 (x3 + 0xa0)) in
       lrd buf 1%nat (fun x7 =>
       let r := wr r 2%nat (u8 (x7 + 0x80)) in
       lrd buf 2%nat (fun x8 =>
       let r := wr r 3%nat (u8 (x8 + 0x80)) in
       Ok (4, r))))
   else
    Ok ((-1), r)))).

(* lib/converters/gb18030_2005.h:194-291 gb18030_2005_mbtowc *)
Definition gb18030_2005_mbtowc_j (s : list Z) (n : nat) (pwc : option Z) : res (Z * option Z) :=
  rd s 0%nat (fun c1 =>
  if ((c1 >=? 0x90) &&& (c1 <=? 0xe3)) then
   if (Nat.leb 2%nat n) then
    rd s 1%nat (fun c2 =>
    if ((c2 >=? 0x30) &&& (c2 <=? 0x39)) then
     if (Nat.leb 3%nat n) then
      rd s 2%nat (fun c3 =>
      if ((c3 >=? 0x81) &&& (c3 <=? 0xfe)) then
       if (Nat.leb 4%nat n) then
        rd s 3%nat (fun c4 =>
        if ((c4 >=? 0x30) &&& (c4 <=? 0x39)) then
         let i := (((((((c1 - 0x90) * 0xa) + (c2 - 0x30)) * 0x7e) + (c3 - 0x81)) * 0xa) + (c4 - 0x30)) in
         if ((i >=? 0) &&& (i <? 0x100000)) then
          let pwc := Some (0x10000 + i) in
          Ok (4, pwc)
         else
          Ok ((-1), pwc)
        else
         Ok ((-1), pwc))
       else
        Ok ((-2), pwc)
      else
       Ok ((-1), pwc))
     else
      Ok ((-2), pwc)
    else
     Ok ((-1), pwc))
   else
    Ok ((-2), pwc)
  else
   Ok ((-1), pwc)).
(* lib/converters/gb18030_2005.h:194-291 gb18030_2005_mbtowc *)
Definition gb18030_2005_mbtowc (s : list Z) (n : nat) : res (Z * option Z) :=
  let pwc := (None : option Z) in
  rd s 0%nat (fun x1 =>
  if (x1 <? 0x80) then
   bind (ascii_mbtowc s n) (fun '(x2, o) =>
   let pwc := oset pwc o in
   Ok (x2, pwc))
  else
   bind (gbk_mbtowc s n) (fun '(ret, o) =>
   let pwc := oset pwc o in
   if (negb (ret =? (-1))) then
    Ok (ret, pwc)
   else
    bind (gb18030_2005_ext_mbtowc s n) (fun '(ret, o) =>
    let pwc := oset pwc o in
    if (negb (ret =? (-1))) then
     Ok (ret, pwc)
    else
     bind (gb18030_2005_uni_mbtowc s n) (fun '(ret, o) =>
     let pwc := oset pwc o in
     if (negb (ret =? (-1))) then
      Ok (ret, pwc)
     else
      rd s 0%nat (fun c1 =>
      if (((c1 >=? 0xaa) &&& (c1 <=? 0xaf)) ||| ((c1 >=? 0xf8) &&& (c1 <=? 0xfe))) then
       if (Nat.leb 2%nat n) then
        rd s 1%nat (fun c2 =>
        if ((c2 >=? 0xa1) &&& (c2 <=? 0xfe)) then
         let pwc := Some ((0xe000 + (0x5e * (if (c1 >=? 0xf8) then (c1 - 0xf2) else (c1 - 0xaa)))) + (c2 - 0xa1)) in
         Ok (2, pwc)
        else
         gb18030_2005_mbtowc_j s n pwc)
       else
        Ok ((-2), pwc)
      else
       if ((c1 >=? 0xa1) &&& (c1 <=? 0xa7)) then
        if (Nat.leb 2%nat n) then
         rd s 1%nat (fun c2 =>
         if (((c2 >=? 0x40) &&& (c2 <=? 0xa1)) &&& (negb (c2 =? 0x7f))) then
          let pwc := Some (((0xe4c6 + (0x60 * (c1 - 0xa1))) + c2) - (if (c2 >=? 0x80) then 0x41 else 0x40)) in
          Ok (2, pwc)
         else
          gb18030_2005_mbtowc_j s n pwc)
        else
         Ok ((-2), pwc)
       else
        gb18030_2005_mbtowc_j s n pwc))))).

(* lib/converters/gb18030_2005.h:332-437 gb18030_2005_wctomb *)
Definition gb18030_2005_wctomb_j (wc : Z) (n : nat) (r : wlog) : res (Z * wlog) :=
  bind (gb18030_2005_uni_wctomb wc n) (fun '(ret, l) =>
  let r := lapp r 0%nat l in
  if (negb (ret =? (-1))) then
   Ok (ret, r)
  else
   if (Nat.leb 4%nat n) then
    if ((wc >=? 0x10000) &&& (wc <? 0x110000)) then
     let i := (wc - 0x10000) in
     let r := wr r 3%nat ((i mod 0xa) + 0x30) in
     let i := (i / 0xa) in
     let r := wr r 2%nat ((i mod 0x7e) + 0x81) in
     let i := (i / 0x7e) in
     let r := wr r 1%nat ((i mod 0xa) + 0x30) in
     let i := (i / 0xa) in
     let r := wr r 0%nat (i + 0x90) in
     Ok (4, r)
    else
     Ok ((-1), r)
   else
    Ok ((-2), r)).
(* lib/converters/gb18030_2005.h:332-437 gb18030_2005_wctomb *)
Fixpoint gb18030_2005_wctomb_loop (fuel : nat) (k1 : Z) (k2 : Z) (wc : Z) (n : nat) (r : wlog) {struct fuel} : res (Z * wlog) :=
  match fuel with O => NoFuel | S fuel =>
  if (k1 <? k2) then
   let k := ((k1 + k2) / 2) in
   tget gb18030_2005_pua2charset (3 * k) (fun x4 =>
   if (wc <? x4) then
    let k2 := k in
    gb18030_2005_wctomb_loop fuel k1 k2 wc n r
   else
    tget gb18030_2005_pua2charset (3 * k + 1) (fun x5 =>
    if (wc >? x5) then
     let k1 := (k + 1) in
     gb18030_2005_wctomb_loop fuel k1 k2 wc n r
    else
     tget gb18030_2005_pua2charset (3 * k + 2) (fun x6 =>
     let c := (u32 (x6 + (u32 (wc - x4)))) in
     if (c <? 0x10000) then
      let r := wr r 0%nat (Z.shiftr c 8) in
      let r := wr r 1%nat (Z.land c 0xff) in
      Ok (2, r)
     else
      let r := wr r 0%nat (Z.shiftr c 0x18) in
      let r := wr r 1%nat (Z.land (Z.shiftr c 0x10) 0xff) in
      let r := wr r 2%nat (Z.land (Z.shiftr c 8) 0xff) in
      let r := wr r 3%nat (Z.land c 0xff) in
      Ok (4, r))))
  else
   gb18030_2005_wctomb_j wc n r
  end.
(* lib/converters/gb18030_2005.h:332-437 gb18030_2005_wctomb *)
Definition gb18030_2005_wctomb (wc : Z) (n : nat) : res (Z * wlog) :=
  let r := ([] : wlog) in
  bind (ascii_wctomb wc n) (fun '(ret, l) =>
  let r := lapp r 0%nat l in
  if (negb (ret =? (-1))) then
   Ok (ret, r)
  else
   bind (gbk_wctomb wc n) (fun '(ret, l) =>
   let r := lapp r 0%nat l in
   if (negb (ret =? (-1))) then
    Ok (ret, r)
   else
    bind (gb18030ext_wctomb wc n) (fun '(ret, l) =>
    let r := lapp r 0%nat l in
    if (negb (ret =? (-1))) then
     Ok (ret, r)
    else
     if ((wc >=? 0xe000) &&& (wc <=? 0xe864)) then
      if (Nat.leb 2%nat n) then
       if (wc <? 0xe766) then
        if (wc <? 0xe4c6) then
         let i := (wc - 0xe000) in
         let r := wr r 1%nat ((i mod 0x5e) + 0xa1) in
         let i := (i / 0x5e) in
         let r := wr r 0%nat (if (i <? 6) then (i + 0xaa) else (i + 0xf2)) in
         Ok (2, r)
        else
         let i := (wc - 0xe4c6) in
         let r := wr r 0%nat ((i / 0x60) + 0xa1) in
         let i := (i mod 0x60) in
         let r := wr r 1%nat (i + (if (i >=? 0x3f) then 0x41 else 0x40)) in
         Ok (2, r)
       else
        let k1 := 0 in
        let k2 := 0x23 in
        gb18030_2005_wctomb_loop 64%nat k1 k2 wc n r
      else
       Ok ((-2), r)
     else
      gb18030_2005_wctomb_j wc n r))).

(* lib/converters/gb18030_2022.h:40-137 gb18030_2022_mbtowc *)
Definition gb18030_2022_mbtowc_j (s : list Z) (n : nat) (pwc : option Z) : res (Z * option Z) :=
  rd s 0%nat (fun c1 =>
  if ((c1 >=? 0x90) &&& (c1 <=? 0xe3)) then
   if (Nat.leb 2%nat n) then
    rd s 1%nat (fun c2 =>
    if ((c2 >=? 0x30) &&& (c2 <=? 0x39)) then
     if (Nat.leb 3%nat n) then
      rd s 2%nat (fun c3 =>
      if ((c3 >=? 0x81) &&& (c3 <=? 0xfe)) then
       if (Nat.leb 4%nat n) then
        rd s 3%nat (fun c4 =>
        if ((c4 >=? 0x30) &&& (c4 <=? 0x39)) then
         let i := (((((((c1 - 0x90) * 0xa) + (c2 - 0x30)) * 0x7e) + (c3 - 0x81)) * 0xa) + (c4 - 0x30)) in
         if ((i >=? 0) &&& (i <? 0x100000)) then
          let pwc := Some (0x10000 + i) in
          Ok (4, pwc)
         else
          Ok ((-1), pwc)
        else
         Ok ((-1), pwc))
       else
        Ok ((-2), pwc)
      else
       Ok ((-1), pwc))
     else
      Ok ((-2), pwc)
    else
     Ok ((-1), pwc))
   else
    Ok ((-2), pwc)
  else
   Ok ((-1), pwc)).
(* lib/converters/gb18030_2022.h:40-137 gb18030_2022_mbtowc *)
Definition gb18030_2022_mbtowc (s : list Z) (n : nat) : res (Z * option Z) :=
  let pwc := (None : option Z) in
  rd s 0%nat (fun x1 =>
  if (x1 <? 0x80) then
   bind (ascii_mbtowc s n) (fun '(x2, o) =>
   let pwc := oset pwc o in
   Ok (x2, pwc))
  else
   bind (gbk_mbtowc s n) (fun '(ret, o) =>
   let pwc := oset pwc o in
   if (negb (ret =? (-1))) then
    Ok (ret, pwc)
   else
    bind (gb18030_2022_ext_mbtowc s n) (fun '(ret, o) =>
    let pwc := oset pwc o in
    if (negb (ret =? (-1))) then
     Ok (ret, pwc)
    else
     bind (gb18030_2022_uni_mbtowc s n) (fun '(ret, o) =>
     let pwc := oset pwc o in
     if (negb (ret =? (-1))) then
      Ok (ret, pwc)
     else
      rd s 0%nat (fun c1 =>
      if (((c1 >=? 0xaa) &&& (c1 <=? 0xaf)) ||| ((c1 >=? 0xf8) &&& (c1 <=? 0xfe))) then
       if (Nat.leb 2%nat n) then
        rd s 1%nat (fun c2 =>
        if ((c2 >=? 0xa1) &&& (c2 <=? 0xfe)) then
         let pwc := Some ((0xe000 + (0x5e * (if (c1 >=? 0xf8) then (c1 - 0xf2) else (c1 - 0xaa)))) + (c2 - 0xa1)) in
         Ok (2, pwc)
        else
         gb18030_2022_mbtowc_j s n pwc)
       else
        Ok ((-2), pwc)
      else
       if ((c1 >=? 0xa1) &&& (c1 <=? 0xa7)) then
        if (Nat.leb 2%nat n) then
         rd s 1%nat (fun c2 =>
         if (((c2 >=? 0x40) &&& (c2 <=? 0xa1)) &&& (negb (c2 =? 0x7f))) then
          let pwc := Some (((0xe4c6 + (0x60 * (c1 - 0xa1))) + c2) - (if (c2 >=? 0x80) then 0x41 else 0x40)) in
          Ok (2, pwc)
         else
          gb18030_2022_mbtowc_j s n pwc)
        else
         Ok ((-2), pwc)
       else
        gb18030_2022_mbtowc_j s n pwc))))).

(* lib/converters/gb18030_2022.h:166-259 gb18030_2022_wctomb *)
Definition gb18030_2022_wctomb_j (wc : Z) (n : nat) (r : wlog) : res (Z * wlog) :=
  bind (gb18030_2022_uni_wctomb wc n) (fun '(ret, l) =>
  let r := lapp r 0%nat l in
  if (negb (ret =? (-1))) then
   Ok (ret, r)
  else
   if (Nat.leb 4%nat n) then
    if ((wc >=? 0x10000) &&& (wc <? 0x110000)) then
     let i := (wc - 0x10000) in
     let r := wr r 3%nat ((i mod 0xa) + 0x30) in
     let i := (i / 0xa) in
     let r := wr r 2%nat ((i mod 0x7e) + 0x81) in
     let i := (i / 0x7e) in
     let r := wr r 1%nat ((i mod 0xa) + 0x30) in
     let i := (i / 0xa) in
     let r := wr r 0%nat (i + 0x90) in
     Ok (4, r)
    else
     Ok ((-1), r)
   else
    Ok ((-2), r)).
(* lib/converters/gb18030_2022.h:166-259 gb18030_2022_wctomb *)
Fixpoint gb18030_2022_wctomb_loop (fuel : nat) (k1 : Z) (k2 : Z) (wc : Z) (n : nat) (r : wlog) {struct fuel} : res (Z * wlog) :=
  match fuel with O => NoFuel | S fuel =>
  if (k1 <? k2) then
   let k := ((k1 + k2) / 2) in
   tget gb18030_2022_pua2charset ((k * 3) + 0) (fun x4 =>
   if (wc <? x4) then
    let k2 := k in
    gb18030_2022_wctomb_loop fuel k1 k2 wc n r
   else
    tget gb18030_2022_pua2charset ((k * 3) + 1) (fun x5 =>
    if (wc >? x5) then
     let k1 := (k + 1) in
     gb18030_2022_wctomb_loop fuel k1 k2 wc n r
    else
     tget gb18030_2022_pua2charset ((k * 3) + 2) (fun x6 =>
     let c := (u16 (u32 (x6 + (u32 (wc - x4))))) in
     let r := wr r 0%nat (Z.shiftr c 8) in
     let r := wr r 1%nat (Z.land c 0xff) in
     Ok (2, r))))
  else
   gb18030_2022_wctomb_j wc n r
  end.
(* lib/converters/gb18030_2022.h:166-259 gb18030_2022_wctomb *)
Definition gb18030_2022_wctomb (wc : Z) (n : nat) : res (Z * wlog) :=
  let r := ([] : wlog) in
  bind (ascii_wctomb wc n) (fun '(ret, l) =>
  let r := lapp r 0%nat l in
  if (negb (ret =? (-1))) then
   Ok (ret, r)
  else
   bind (gbk_wctomb wc n) (fun '(ret, l) =>
   let r := lapp r 0%nat l in
   if (negb (ret =? (-1))) then
    Ok (ret, r)
   else
    bind (gb18030ext_wctomb wc n) (fun '(ret, l) =>
    let r := lapp r 0%nat l in
    if (negb (ret =? (-1))) then
     Ok (ret, r)
    else
     if ((wc >=? 0xe000) &&& (wc <=? 0xe864)) then
      if (Nat.leb 2%nat n) then
       if (wc <? 0xe766) then
        if (wc <? 0xe4c6) then
         let i := (wc - 0xe000) in
         let r := wr r 1%nat ((i mod 0x5e) + 0xa1) in
         let i := (i / 0x5e) in
         let r := wr r 0%nat (if (i <? 6) then (i + 0xaa) else (i + 0xf2)) in
         Ok (2, r)
        else
         let i := (wc - 0xe4c6) in
         let r := wr r 0%nat ((i / 0x60) + 0xa1) in
         let i := (i mod 0x60) in
         let r := wr r 1%nat (i + (if (i >=? 0x3f) then 0x41 else 0x40)) in
         Ok (2, r)
       else
        let k1 := 0 in
        let k2 := 0x17 in
        gb18030_2022_wctomb_loop 64%nat k1 k2 wc n r
      else
       Ok ((-2), r)
     else
      gb18030_2022_wctomb_j wc n r))).

(* lib/converters/cp949.h:51-94 cp949_mbtowc *)
Definition cp949_mbtowc (s : list Z) (n : nat) : res (Z * option Z) :=
  let pwc := (None : option Z) in
  rd s 0%nat (fun c =>
  if (c <? 0x80) then
   bind (ascii_mbtowc s n) (fun '(x2, o) =>
   let pwc := oset pwc o in
   Ok (x2, pwc))
  else
   if ((c >=? 0x81) &&& (c <=? 0xa0)) then
    bind (uhc_1_mbtowc s n) (fun '(x3, o) =>
    let pwc := oset pwc o in
    Ok (x3, pwc))
   else
    if ((c >=? 0xa1) &&& (c <? 0xff)) then
     if (Nat.ltb n 2%nat) then
      Ok ((-2), pwc)
     else
      rd s 1%nat (fun c2 =>
      if (c2 <? 0xa1) then
       bind (uhc_2_mbtowc s n) (fun '(x5, o) =>
       let pwc := oset pwc o in
       Ok (x5, pwc))
      else
       if ((c2 <? 0xff) &&& (negb ((c =? 0xa2) &&& (c2 =? 0xe8)))) then
        let buf := ([] : wlog) in
        wrb 2%nat buf 0%nat (c - 0x80) (fun buf =>
        wrb 2%nat buf 1%nat (c2 - 0x80) (fun buf =>
        bind (ksc5601_mbtowc (lbuf buf 0%nat 2%nat) 2%nat) (fun '(ret, o) =>
        let pwc := oset pwc o in
        if (negb (ret =? (-1))) then
         Ok (ret, pwc)
        else
         if (c =? 0xc9) then
          let pwc := Some (0xe000 + (c2 - 0xa1)) in
          Ok (2, pwc)
         else
          if (c =? 0xfe) then
           let pwc := Some (0xe05e + (c2 - 0xa1)) in
           Ok (2, pwc)
          else
           Ok ((-1), pwc))))
       else
        Ok ((-1), pwc))
    else
     Ok ((-1), pwc)).

(* lib/converters/cp949.h:96-150 cp949_wctomb *)
Definition cp949_wctomb_j (wc : Z) (n : nat) (r : wlog) : res (Z * wlog) :=
  if ((wc >=? 0xac00) &&& (wc <? 0xd7a4)) then
   if (wc <? 0xc8a5) then
    bind (uhc_1_wctomb wc n) (fun '(x5, l) =>
    let r := lapp r 0%nat l in
    Ok (x5, r))
   else
    bind (uhc_2_wctomb wc n) (fun '(x6, l) =>
    let r := lapp r 0%nat l in
    Ok (x6, r))
  else
   if ((wc >=? 0xe000) &&& (wc <? 0xe0bc)) then
    if (Nat.ltb n 2%nat) then
     Ok ((-2), r)
    else
     if (wc <? 0xe05e) then
      let r := wr r 0%nat 0xc9 in
      let r := wr r 1%nat ((wc - 0xe000) + 0xa1) in
      Ok (2, r)
     else
      let r := wr r 0%nat 0xfe in
      let r := wr r 1%nat ((wc - 0xe05e) + 0xa1) in
      Ok (2, r)
   else
    Ok ((-1), r).
(* lib/converters/cp949.h:96-150 cp949_wctomb *)
Definition cp949_wctomb (wc : Z) (n : nat) : res (Z * wlog) :=
  let r := ([] : wlog) in
  let buf := ([] : wlog) in
  bind (ascii_wctomb wc n) (fun '(ret, l) =>
  let r := lapp r 0%nat l in
  if (negb (ret =? (-1))) then
   Ok (ret, r)
  else
   if (negb (wc =? 0x327e)) then
    bind (ksc5601_wctomb wc 2%nat) (fun '(ret, l) =>
    lappb 2%nat buf 0%nat l (fun buf =>
    if (negb (ret =? (-1))) then
     if (negb (ret =? 2)) then
      Abort
     else
      if (Nat.ltb n 2%nat) then
       Ok ((-2), r)
      else
       lrd buf 0%nat (fun x3 =>
       let r := wr r 0%nat (u8 (x3 + 0x80)) in
       lrd buf 1%nat (fun x4 =>
       let r := wr r 1%nat (u8 (x4 + 0x80)) in
       Ok (2, r)))
    else
     cp949_wctomb_j wc n r))
   else
    cp949_wctomb_j wc n r).

(* lib/converters/euc_kr.h:35-60 euc_kr_mbtowc *)
Definition euc_kr_mbtowc (s : list Z) (n : nat) : res (Z * option Z) :=
  let pwc := (None : option Z) in
  rd s 0%nat (fun c =>
  if (c <? 0x80) then
   bind (ascii_mbtowc s n) (fun '(x2, o) =>
   let pwc := oset pwc o in
   Ok (x2, pwc))
  else
   if ((c >=? 0xa1) &&& (c <? 0xff)) then
    if (Nat.ltb n 2%nat) then
     Ok ((-2), pwc)
    else
     rd s 1%nat (fun c2 =>
     if ((c2 >=? 0xa1) &&& (c2 <? 0xff)) then
      let buf := ([] : wlog) in
      wrb 2%nat buf 0%nat (c - 0x80) (fun buf =>
      wrb 2%nat buf 1%nat (c2 - 0x80) (fun buf =>
      bind (ksc5601_mbtowc (lbuf buf 0%nat 2%nat) 2%nat) (fun '(x4, o) =>
      let pwc := oset pwc o in
      Ok (x4, pwc))))
     else
      Ok ((-1), pwc))
   else
    Ok ((-1), pwc)).

(* lib/converters/euc_kr.h:62-86 euc_kr_wctomb *)
Definition euc_kr_wctomb (wc : Z) (n : nat) : res (Z * wlog) :=
  let r := ([] : wlog) in
  let buf := ([] : wlog) in
  bind (ascii_wctomb wc n) (fun '(ret, l) =>
  let r := lapp r 0%nat l in
  if (negb (ret =? (-1))) then
   Ok (ret, r)
  else
   bind (ksc5601_wctomb wc 2%nat) (fun '(ret, l) =>
   lappb 2%nat buf 0%nat l (fun buf =>
   if (negb (ret =? (-1))) then
    if (negb (ret =? 2)) then
     Abort
    else
     if (Nat.ltb n 2%nat) then
      Ok ((-2), r)
     else
      lrd buf 0%nat (fun x3 =>
      let r := wr r 0%nat (u8 (x3 + 0x80)) in
      lrd buf 1%nat (fun x4 =>
      let r := wr r 1%nat (u8 (x4 + 0x80)) in
      Ok (2, r)))
   else
    Ok ((-1), r)))).

(* lib/converters/johab.h:57-100 johab_mbtowc *)
Definition johab_mbtowc (s : list Z) (n : nat) : res (Z * option Z) :=
  let pwc := (None : option Z) in
  rd s 0%nat (fun c =>
  if (c <? 0x80) then
   if (c =? 0x5c) then
    let pwc := Some 0x20a9 in
    Ok (1, pwc)
   else
    let pwc := Some c in
    Ok (1, pwc)
  else
   if (c <? 0xd8) then
    bind (johab_hangul_mbtowc s n) (fun '(x2, o) =>
    let pwc := oset pwc o in
    Ok (x2, pwc))
   else
    let s1 := c in
    if (((s1 >=? 0xd9) &&& (s1 <=? 0xde)) ||| ((s1 >=? 0xe0) &&& (s1 <=? 0xf9))) then
     if (Nat.ltb n 2%nat) then
      Ok ((-2), pwc)
     else
      rd s 1%nat (fun s2 =>
      if (((s2 >=? 0x31) &&& (s2 <=? 0x7e)) ||| ((s2 >=? 0x91) &&& (s2 <=? 0xfe))) then
       if (negb ((s1 =? 0xda) &&& ((s2 >=? 0xa1) &&& (s2 <=? 0xd3)))) then
        let t1 := (if (s1 <? 0xe0) then (2 * (s1 - 0xd9)) else ((2 * s1) - 0x197)) in
        let t2 := (if (s2 <? 0x91) then (s2 - 0x31) else (s2 - 0x43)) in
        let buf := ([] : wlog) in
        wrb 2%nat buf 0%nat ((t1 + (if (t2 <? 0x5e) then 0 else 1)) + 0x21) (fun buf =>
        wrb 2%nat buf 1%nat ((if (t2 <? 0x5e) then t2 else (t2 - 0x5e)) + 0x21) (fun buf =>
        bind (ksc5601_mbtowc (lbuf buf 0%nat 2%nat) 2%nat) (fun '(x4, o) =>
        let pwc := oset pwc o in
        Ok (x4, pwc))))
       else
        Ok ((-1), pwc)
      else
       Ok ((-1), pwc))
    else
     Ok ((-1), pwc)).

(* lib/converters/johab.h:102-158 johab_wctomb *)
Definition johab_wctomb (wc : Z) (n : nat) : res (Z * wlog) :=
  let r := ([] : wlog) in
  let buf := ([] : wlog) in
  if ((wc <? 0x80) &&& (negb (wc =? 0x5c))) then
   let r := wr r 0%nat wc in
   Ok (1, r)
  else
   if (wc =? 0x20a9) then
    let r := wr r 0%nat 0x5c in
    Ok (1, r)
   else
    bind (johab_hangul_wctomb wc 2%nat) (fun '(ret, l) =>
    lappb 2%nat buf 0%nat l (fun buf =>
    if (negb (ret =? (-1))) then
     if (negb (ret =? 2)) then
      Abort
     else
      if (Nat.ltb n 2%nat) then
       Ok ((-2), r)
      else
       lrd buf 0%nat (fun x2 =>
       let r := wr r 0%nat x2 in
       lrd buf 1%nat (fun x3 =>
       let r := wr r 1%nat x3 in
       Ok (2, r)))
    else
     bind (ksc5601_wctomb wc 2%nat) (fun '(ret, l) =>
     lappb 2%nat buf 0%nat l (fun buf =>
     if (negb (ret =? (-1))) then
      if (negb (ret =? 2)) then
       Abort
      else
       if (Nat.ltb n 2%nat) then
        Ok ((-2), r)
       else
        lrd buf 0%nat (fun c1 =>
        lrd buf 1%nat (fun c2 =>
        if ((((c1 >=? 0x21) &&& (c1 <=? 0x2c)) ||| ((c1 >=? 0x4a) &&& (c1 <=? 0x7d))) &&& ((c2 >=? 0x21) &&& (c2 <=? 0x7e))) then
         let t := (if (c1 <? 0x4a) then ((c1 - 0x21) + 0x1b2) else ((c1 - 0x21) + 0x197)) in
         let t2 := ((if (negb ((Z.land t 1) =? 0)) then 0x5e else 0) + (c2 - 0x21)) in
         let r := wr r 0%nat (Z.shiftr t 1) in
         let r := wr r 1%nat (if (t2 <? 0x4e) then (t2 + 0x31) else (t2 + 0x43)) in
         Ok (2, r)
        else
         Ok ((-1), r)))
     else
      Ok ((-1), r))))).

(* lib/converters/dec_hanyu.h:36-90 dec_hanyu_mbtowc *)
Definition dec_hanyu_mbtowc (s : list Z) (n : nat) : res (Z * option Z) :=
  let pwc := (None : option Z) in
  rd s 0%nat (fun c =>
  if (c <? 0x80) then
   bind (ascii_mbtowc s n) (fun '(x2, o) =>
   let pwc := oset pwc o in
   Ok (x2, pwc))
  else
   if ((c >=? 0xa1) &&& (c <? 0xff)) then
    if (Nat.ltb n 2%nat) then
     Ok ((-2), pwc)
    else
     rd s 1%nat (fun c2 =>
     if ((c =? 0xc2) &&& (c2 =? 0xcb)) then
      if (Nat.ltb n 4%nat) then
       Ok ((-2), pwc)
      else
       rd s 2%nat (fun x4 =>
       if (x4 >=? 0xa1) then
        if (x4 <? 0xff) then
         rd s 3%nat (fun x6 =>
         if (x6 >=? 0xa1) then
          if (x6 <? 0xff) then
           let buf := ([] : wlog) in
           wrb 2%nat buf 0%nat (x4 - 0x80) (fun buf =>
           wrb 2%nat buf 1%nat (x6 - 0x80) (fun buf =>
           bind (cns11643_3_mbtowc (lbuf buf 0%nat 2%nat) 2%nat) (fun '(ret, o) =>
           let pwc := oset pwc o in
           if (negb (ret =? (-1))) then
            if (negb (ret =? 2)) then
             Abort
            else
             Ok (4, pwc)
           else
            Ok ((-1), pwc))))
          else
           Ok ((-1), pwc)
         else
          Ok ((-1), pwc))
        else
         Ok ((-1), pwc)
       else
        Ok ((-1), pwc))
     else
      if ((c2 >=? 0xa1) &&& (c2 <? 0xff)) then
       if ((negb (c =? 0xc2)) ||| (c2 <? 0xc2)) then
        let buf := ([] : wlog) in
        wrb 2%nat buf 0%nat (c - 0x80) (fun buf =>
        wrb 2%nat buf 1%nat (c2 - 0x80) (fun buf =>
        bind (cns11643_1_mbtowc (lbuf buf 0%nat 2%nat) 2%nat) (fun '(x11, o) =>
        let pwc := oset pwc o in
        Ok (x11, pwc))))
       else
        Ok ((-1), pwc)
      else
       if ((c2 >=? 0x21) &&& (c2 <? 0x7f)) then
        let buf := ([] : wlog) in
        wrb 2%nat buf 0%nat (c - 0x80) (fun buf =>
        wrb 2%nat buf 1%nat c2 (fun buf =>
        bind (cns11643_2_mbtowc (lbuf buf 0%nat 2%nat) 2%nat) (fun '(x12, o) =>
        let pwc := oset pwc o in
        Ok (x12, pwc))))
       else
        Ok ((-1), pwc))
   else
    Ok ((-1), pwc)).

(* lib/converters/dec_hanyu.h:92-142 dec_hanyu_wctomb *)
Definition dec_hanyu_wctomb_j (buf : wlog) (x4 : Z) (n : nat) (r : wlog) : res (Z * wlog) :=
  if (Nat.ltb n 2%nat) then
   Ok ((-2), r)
  else
   let r := wr r 0%nat (u8 (x4 + 0x80)) in
   lrd buf 2%nat (fun x7 =>
   let r := wr r 1%nat (u8 (x7 + 0x80)) in
   Ok (2, r)).
(* lib/converters/dec_hanyu.h:92-142 dec_hanyu_wctomb *)
Definition dec_hanyu_wctomb_j2 (buf : wlog) (x3 : Z) (n : nat) (r : wlog) : res (Z * wlog) :=
  if (x3 =? 2) then
   if (Nat.ltb n 2%nat) then
    Ok ((-2), r)
   else
    lrd buf 1%nat (fun x9 =>
    let r := wr r 0%nat (u8 (x9 + 0x80)) in
    lrd buf 2%nat (fun x10 =>
    let r := wr r 1%nat x10 in
    Ok (2, r)))
  else
   if (x3 =? 3) then
    if (Nat.ltb n 4%nat) then
     Ok ((-2), r)
    else
     let r := wr r 0%nat 0xc2 in
     let r := wr r 1%nat 0xcb in
     lrd buf 1%nat (fun x12 =>
     let r := wr r 2%nat (u8 (x12 + 0x80)) in
     lrd buf 2%nat (fun x13 =>
     let r := wr r 3%nat (u8 (x13 + 0x80)) in
     Ok (4, r)))
   else
    Ok ((-1), r).
(* lib/converters/dec_hanyu.h:92-142 dec_hanyu_wctomb *)
Definition dec_hanyu_wctomb (wc : Z) (n : nat) : res (Z * wlog) :=
  let r := ([] : wlog) in
  let buf := ([] : wlog) in
  bind (ascii_wctomb wc n) (fun '(ret, l) =>
  let r := lapp r 0%nat l in
  if (negb (ret =? (-1))) then
   Ok (ret, r)
  else
   bind (cns11643_inv_wctomb wc 3%nat) (fun '(ret, l) =>
   lappb 3%nat buf 0%nat l (fun buf =>
   if (negb (ret =? (-1))) then
    if (negb (ret =? 3)) then
     Abort
    else
     lrd buf 0%nat (fun x3 =>
     if (x3 =? 1) then
      lrd buf 1%nat (fun x4 =>
      if (negb (x4 =? 0x42)) then
       dec_hanyu_wctomb_j buf x4 n r
      else
       lrd buf 2%nat (fun x5 =>
       if (x5 <? 0x42) then
        dec_hanyu_wctomb_j buf x4 n r
       else
        dec_hanyu_wctomb_j2 buf x3 n r))
     else
      dec_hanyu_wctomb_j2 buf x3 n r)
   else
    Ok ((-1), r)))).

(* lib/converters/dec_kanji.h:34-57 dec_kanji_mbtowc *)
Definition dec_kanji_mbtowc (s : list Z) (n : nat) : res (Z * option Z) :=
  let pwc := (None : option Z) in
  rd s 0%nat (fun c =>
  if (c <? 0x80) then
   bind (ascii_mbtowc s n) (fun '(x2, o) =>
   let pwc := oset pwc o in
   Ok (x2, pwc))
  else
   if ((c >=? 0xa1) &&& (c <? 0xf5)) then
    if (Nat.ltb n 2%nat) then
     Ok ((-2), pwc)
    else
     rd s 1%nat (fun c2 =>
     if ((c2 >=? 0xa1) &&& (c2 <? 0xff)) then
      let buf := ([] : wlog) in
      wrb 2%nat buf 0%nat (c - 0x80) (fun buf =>
      wrb 2%nat buf 1%nat (c2 - 0x80) (fun buf =>
      bind (jisx0208_mbtowc (lbuf buf 0%nat 2%nat) 2%nat) (fun '(x4, o) =>
      let pwc := oset pwc o in
      Ok (x4, pwc))))
     else
      Ok ((-1), pwc))
   else
    Ok ((-1), pwc)).

(* lib/converters/dec_kanji.h:59-83 dec_kanji_wctomb *)
Definition dec_kanji_wctomb (wc : Z) (n : nat) : res (Z * wlog) :=
  let r := ([] : wlog) in
  let buf := ([] : wlog) in
  bind (ascii_wctomb wc n) (fun '(ret, l) =>
  let r := lapp r 0%nat l in
  if (negb (ret =? (-1))) then
   Ok (ret, r)
  else
   bind (jisx0208_wctomb wc 2%nat) (fun '(ret, l) =>
   lappb 2%nat buf 0%nat l (fun buf =>
   if (negb (ret =? (-1))) then
    if (negb (ret =? 2)) then
     Abort
    else
     if (Nat.ltb n 2%nat) then
      Ok ((-2), r)
     else
      lrd buf 0%nat (fun x3 =>
      let r := wr r 0%nat (u8 (x3 + 0x80)) in
      lrd buf 1%nat (fun x4 =>
      let r := wr r 1%nat (u8 (x4 + 0x80)) in
      Ok (2, r)))
   else
    Ok ((-1), r)))).

(* lib/converters/euc_jisx0213.h:135-175 euc_jisx0213_comp_table_data (flattened, 2 fields per entry) *)
Definition euc_jisx0213_comp_table_data : tab := mk [
 [44004;44005;44000;44006;43484;43972;43960;43976;43959;43978;43952;43980;43971;43982;43960;43977];
 [43959;43979;43952;43981;43971;43983;42155;42231;42157;42232;42159;42233;42161;42234;42163;42235];
 [42411;42487;42413;42488;42415;42489;42417;42490;42419;42491;42427;42492;42436;42493;42440;42494];
 [42741;42744]].

(* lib/converters/euc_jisx0213.h:48-130 euc_jisx0213_mbtowc *)
Definition euc_jisx0213_mbtowc_j2 (c : Z) (pwc : option Z) (ist : Z) (ibo : Z) : res (Z * option Z * Z * Z) :=
  if (c =? 0x8f) then
   Ok (3, pwc, ist, ibo)
  else
   Ok (2, pwc, ist, ibo).
(* lib/converters/euc_jisx0213.h:48-130 euc_jisx0213_mbtowc *)
Definition euc_jisx0213_mbtowc_j (c : Z) (wc : Z) (pwc : option Z) (ist : Z) (ibo : Z) : res (Z * option Z * Z * Z) :=
  if (negb (wc =? 0)) then
   if (wc <? 0x80) then
    tget jisx0213_to_ucs_combining (2 * (wc - 1)) (fun x6 =>
    let wc1 := x6 in
    tget jisx0213_to_ucs_combining (2 * (wc - 1) + 1) (fun x7 =>
    let wc2 := x7 in
    let pwc := Some wc1 in
    let ist := wc2 in
    euc_jisx0213_mbtowc_j2 c pwc ist ibo))
   else
    let pwc := Some wc in
    euc_jisx0213_mbtowc_j2 c pwc ist ibo
  else
   Ok ((-1), pwc, ist, ibo).
(* lib/converters/euc_jisx0213.h:48-130 euc_jisx0213_mbtowc *)
Definition euc_jisx0213_mbtowc (s : list Z) (n : nat) (ist : Z) (ibo : Z) : res (Z * option Z * Z * Z) :=
  let pwc := (None : option Z) in
  let last_wc := ist in
  if (negb (last_wc =? 0)) then
   let ist := 0 in
   let pwc := Some last_wc in
   Ok (0, pwc, ist, ibo)
  else
   rd s 0%nat (fun c =>
   if (c <? 0x80) then
    let pwc := Some c in
    Ok (1, pwc, ist, ibo)
   else
    if ((((c >=? 0xa1) &&& (c <=? 0xfe)) ||| (c =? 0x8e)) ||| (c =? 0x8f)) then
     if (Nat.leb 2%nat n) then
      rd s 1%nat (fun c2 =>
      if ((c2 >=? 0xa1) &&& (c2 <=? 0xfe)) then
       if (c =? 0x8e) then
        if (c2 <=? 0xdf) then
         let pwc := Some (c2 + 0xfec0) in
         Ok (2, pwc, ist, ibo)
        else
         Ok ((-1), pwc, ist, ibo)
       else
        if (c =? 0x8f) then
         if (Nat.leb 3%nat n) then
          rd s 2%nat (fun c3 =>
          bind (jisx0213_to_ucs4 (0x180 + c2) (Z.lxor c3 0x80)) (fun wc =>
          euc_jisx0213_mbtowc_j c wc pwc ist ibo))
         else
          Ok ((-2), pwc, ist, ibo)
        else
         bind (jisx0213_to_ucs4 (0x80 + c) (Z.lxor c2 0x80)) (fun wc =>
         euc_jisx0213_mbtowc_j c wc pwc ist ibo)
      else
       Ok ((-1), pwc, ist, ibo))
     else
      Ok ((-2), pwc, ist, ibo)
    else
     Ok ((-1), pwc, ist, ibo)).

(* lib/converters/euc_jisx0213.h:177-300 euc_jisx0213_wctomb *)
Definition euc_jisx0213_wctomb_j2 (count : Z) (wc : Z) (n : nat) (ro : nat) (r : wlog) (ost : Z) : res (Z * wlog * Z) :=
  if (wc <? 0x80) then
   if (Nat.ltb (Z.to_nat count) n) then
    let r := wr r ro wc in
    let ost := 0 in
    Ok ((count + 1), r, ost)
   else
    Ok ((-2), r, ost)
  else
   if ((wc >=? 0xff61) &&& (wc <=? 0xff9f)) then
    if (Nat.leb (Z.to_nat (count + 2)) n) then
     let r := wr r ro 0x8e in
     let r := wr r (Nat.add ro 1%nat) (wc - 0xfec0) in
     let ost := 0 in
     Ok ((count + 2), r, ost)
    else
     Ok ((-2), r, ost)
   else
    bind (ucs4_to_jisx0213 wc) (fun jch =>
    if (negb (jch =? 0)) then
     if (negb ((Z.land jch 0x80) =? 0)) then
      if (negb ((Z.land jch 0x8000) =? 0)) then
       Abort
      else
       let ost := (Z.lor jch 0x8080) in
       Ok ((count + 0), r, ost)
     else
      if (negb ((Z.land jch 0x8000) =? 0)) then
       if (Nat.leb (Z.to_nat (count + 3)) n) then
        let r := wr r ro 0x8f in
        let r := wr r (Nat.add ro 1%nat) (Z.lor (Z.shiftr jch 8) 0x80) in
        let r := wr r (Nat.add ro 2%nat) (Z.lor (Z.land jch 0xff) 0x80) in
        let ost := 0 in
        Ok ((count + 3), r, ost)
       else
        Ok ((-2), r, ost)
      else
       if (Nat.leb (Z.to_nat (count + 2)) n) then
        let r := wr r ro (Z.lor (Z.shiftr jch 8) 0x80) in
        let r := wr r (Nat.add ro 1%nat) (Z.lor (Z.land jch 0xff) 0x80) in
        let ost := 0 in
        Ok ((count + 2), r, ost)
       else
        Ok ((-2), r, ost)
    else
     Ok ((-1), r, ost)).
(* lib/converters/euc_jisx0213.h:177-300 euc_jisx0213_wctomb *)
Definition euc_jisx0213_wctomb_not_combining (lasttwo : Z) (wc : Z) (n : nat) (ro : nat) (r : wlog) (ost : Z) : res (Z * wlog * Z) :=
  if (Nat.ltb n 2%nat) then
   Ok ((-2), r, ost)
  else
   let r := wr r ro (Z.land (Z.shiftr lasttwo 8) 0xff) in
   let r := wr r (Nat.add ro 1%nat) (Z.land lasttwo 0xff) in
   let ro := (Nat.add ro 2%nat) in
   let count := 2 in
   euc_jisx0213_wctomb_j2 count wc n ro r ost.
(* lib/converters/euc_jisx0213.h:177-300 euc_jisx0213_wctomb *)
Definition euc_jisx0213_wctomb_j (idx : Z) (lasttwo : Z) (len : Z) (wc : Z) (n : nat) (ro : nat) (r : wlog) (ost : Z) : res (Z * wlog * Z) :=
  if (len >? 0) then
   if (Nat.leb 2%nat n) then
    tget euc_jisx0213_comp_table_data (2 * idx + 1) (fun lasttwo =>
    let r := wr r ro (Z.land (Z.shiftr lasttwo 8) 0xff) in
    let r := wr r (Nat.add ro 1%nat) (Z.land lasttwo 0xff) in
    let ost := 0 in
    Ok (2, r, ost))
   else
    Ok ((-2), r, ost)
  else
   euc_jisx0213_wctomb_not_combining lasttwo wc n ro r ost.
(* lib/converters/euc_jisx0213.h:177-300 euc_jisx0213_wctomb *)
Fixpoint euc_jisx0213_wctomb_loop (fuel : nat) (idx : Z) (lasttwo : Z) (len : Z) (wc : Z) (n : nat) (ro : nat) (r : wlog) (ost : Z) {struct fuel} : res (Z * wlog * Z) :=
  match fuel with O => NoFuel | S fuel =>
  tget euc_jisx0213_comp_table_data (2 * idx) (fun x1 =>
  if (x1 =? lasttwo) then
   euc_jisx0213_wctomb_j idx lasttwo len wc n ro r ost
  else
   let idx := (u32 (idx + 1)) in
   let len := (u32 (len - 1)) in
   if (len >? 0) then
    euc_jisx0213_wctomb_loop fuel idx lasttwo len wc n ro r ost
   else
    euc_jisx0213_wctomb_j idx lasttwo len wc n ro r ost)
  end.
(* lib/converters/euc_jisx0213.h:177-300 euc_jisx0213_wctomb *)
Definition euc_jisx0213_wctomb (wc : Z) (n : nat) (ost : Z) : res (Z * wlog * Z) :=
  let r := ([] : wlog) in
  let ro := 0%nat in
  let count := 0 in
  let lasttwo := (u16 ost) in
  if (negb (lasttwo =? 0)) then
   if (wc =? 0x2e5) then
    let idx := 0 in
    let len := 1 in
    euc_jisx0213_wctomb_loop 64%nat idx lasttwo len wc n ro r ost
   else
    if (wc =? 0x2e9) then
     let idx := 1 in
     let len := 1 in
     euc_jisx0213_wctomb_loop 64%nat idx lasttwo len wc n ro r ost
    else
     if (wc =? 0x300) then
      let idx := 2 in
      let len := 5 in
      euc_jisx0213_wctomb_loop 64%nat idx lasttwo len wc n ro r ost
     else
      if (wc =? 0x301) then
       let idx := 7 in
       let len := 4 in
       euc_jisx0213_wctomb_loop 64%nat idx lasttwo len wc n ro r ost
      else
       if (wc =? 0x309a) then
        let idx := 0xb in
        let len := 0xe in
        euc_jisx0213_wctomb_loop 64%nat idx lasttwo len wc n ro r ost
       else
        euc_jisx0213_wctomb_not_combining lasttwo wc n ro r ost
  else
   euc_jisx0213_wctomb_j2 count wc n ro r ost.

(* lib/converters/euc_jisx0213.h:302-317 euc_jisx0213_reset *)
Definition euc_jisx0213_reset (n : nat) (ost : Z) : res (Z * wlog * Z) :=
  let r := ([] : wlog) in
  let lasttwo := ost in
  if (negb (lasttwo =? 0)) then
   if (Nat.ltb n 2%nat) then
    Ok ((-2), r, ost)
   else
    let r := wr r 0%nat (Z.land (Z.shiftr lasttwo 8) 0xff) in
    let r := wr r 1%nat (Z.land lasttwo 0xff) in
    Ok (2, r, ost)
  else
   Ok (0, r, ost).

(* lib/converters/shift_jisx0213.h:144-184 shift_jisx0213_comp_table_data (flattened, 2 fields per entry) *)
Definition shift_jisx0213_comp_table_data : tab := mk [
 [34436;34437;34432;34438;34171;34403;34391;34407;34390;34409;34383;34411;34402;34413;34391;34408];
 [34390;34410;34383;34412;34402;34414;33449;33525;33451;33526;33453;33527;33455;33528;33457;33529];
 [33610;33687;33612;33688;33614;33689;33616;33690;33618;33691;33626;33692;33635;33693;33639;33694];
 [33779;33782]].

(* lib/converters/shift_jisx0213.h:49-139 shift_jisx0213_mbtowc *)
Definition shift_jisx0213_mbtowc_j4 (c1 : Z) (c2 : Z) (pwc : option Z) (ist : Z) (ibo : Z) : res (Z * option Z * Z * Z) :=
  bind (jisx0213_to_ucs4 (0x121 + c1) c2) (fun wc =>
  if (negb (wc =? 0)) then
   if (wc <? 0x80) then
    tget jisx0213_to_ucs_combining (2 * (wc - 1)) (fun x4 =>
    let wc1 := x4 in
    tget jisx0213_to_ucs_combining (2 * (wc - 1) + 1) (fun x5 =>
    let wc2 := x5 in
    let pwc := Some wc1 in
    let ist := wc2 in
    Ok (2, pwc, ist, ibo)))
   else
    let pwc := Some wc in
    Ok (2, pwc, ist, ibo)
  else
   Ok ((-1), pwc, ist, ibo)).
(* lib/converters/shift_jisx0213.h:49-139 shift_jisx0213_mbtowc *)
Definition shift_jisx0213_mbtowc_j3 (c1 : Z) (c2 : Z) (pwc : option Z) (ist : Z) (ibo : Z) : res (Z * option Z * Z * Z) :=
  let c2 := (c2 + 0x21) in
  if (c1 >=? 0x5e) then
   if (c1 >=? 0x67) then
    let c1 := (c1 + 0xe6) in
    shift_jisx0213_mbtowc_j4 c1 c2 pwc ist ibo
   else
    if ((c1 >=? 0x63) ||| (c1 =? 0x5f)) then
     let c1 := (c1 + 0xa8) in
     shift_jisx0213_mbtowc_j4 c1 c2 pwc ist ibo
    else
     let c1 := (c1 + 0xa2) in
     shift_jisx0213_mbtowc_j4 c1 c2 pwc ist ibo
  else
   shift_jisx0213_mbtowc_j4 c1 c2 pwc ist ibo.
(* lib/converters/shift_jisx0213.h:49-139 shift_jisx0213_mbtowc *)
Definition shift_jisx0213_mbtowc_j2 (c : Z) (c2 : Z) (pwc : option Z) (ist : Z) (ibo : Z) : res (Z * option Z * Z * Z) :=
  let c1 := (2 * c) in
  if (c2 >=? 0x5e) then
   let c2 := (c2 - 0x5e) in
   let c1 := (c1 + 1) in
   shift_jisx0213_mbtowc_j3 c1 c2 pwc ist ibo
  else
   shift_jisx0213_mbtowc_j3 c1 c2 pwc ist ibo.
(* lib/converters/shift_jisx0213.h:49-139 shift_jisx0213_mbtowc *)
Definition shift_jisx0213_mbtowc_j (c : Z) (c2 : Z) (pwc : option Z) (ist : Z) (ibo : Z) : res (Z * option Z * Z * Z) :=
  if (c2 <? 0x80) then
   let c2 := (c2 - 0x40) in
   shift_jisx0213_mbtowc_j2 c c2 pwc ist ibo
  else
   let c2 := (c2 - 0x41) in
   shift_jisx0213_mbtowc_j2 c c2 pwc ist ibo.
(* lib/converters/shift_jisx0213.h:49-139 shift_jisx0213_mbtowc *)
Definition shift_jisx0213_mbtowc (s : list Z) (n : nat) (ist : Z) (ibo : Z) : res (Z * option Z * Z * Z) :=
  let pwc := (None : option Z) in
  let last_wc := ist in
  if (negb (last_wc =? 0)) then
   let ist := 0 in
   let pwc := Some last_wc in
   Ok (0, pwc, ist, ibo)
  else
   rd s 0%nat (fun c =>
   if (c <? 0x80) then
    if (c =? 0x5c) then
     let pwc := Some 0xa5 in
     Ok (1, pwc, ist, ibo)
    else
     if (c =? 0x7e) then
      let pwc := Some 0x203e in
      Ok (1, pwc, ist, ibo)
     else
      let pwc := Some c in
      Ok (1, pwc, ist, ibo)
   else
    if ((c >=? 0xa1) &&& (c <=? 0xdf)) then
     let pwc := Some (c + 0xfec0) in
     Ok (1, pwc, ist, ibo)
    else
     if (((c >=? 0x81) &&& (c <=? 0x9f)) ||| ((c >=? 0xe0) &&& (c <=? 0xfc))) then
      if (Nat.leb 2%nat n) then
       rd s 1%nat (fun c2 =>
       if (((c2 >=? 0x40) &&& (c2 <=? 0x7e)) ||| ((c2 >=? 0x80) &&& (c2 <=? 0xfc))) then
        if (c <? 0xe0) then
         let c := (c - 0x81) in
         shift_jisx0213_mbtowc_j c c2 pwc ist ibo
        else
         let c := (c - 0xc1) in
         shift_jisx0213_mbtowc_j c c2 pwc ist ibo
       else
        Ok ((-1), pwc, ist, ibo))
      else
       Ok ((-2), pwc, ist, ibo)
     else
      Ok ((-1), pwc, ist, ibo)).

(* lib/converters/shift_jisx0213.h:186-341 shift_jisx0213_wctomb *)
Definition shift_jisx0213_wctomb_j6 (count : Z) (jch : Z) (s1 : Z) (s2 : Z) (n : nat) (ro : nat) (r : wlog) (ost : Z) : res (Z * wlog * Z) :=
  if (negb ((Z.land jch 0x80) =? 0)) then
   if (negb ((Z.land jch 0x8000) =? 0)) then
    Abort
   else
    let ost := (Z.lor (u32 (Z.shiftl s1 8)) s2) in
    Ok ((count + 0), r, ost)
  else
   if (Nat.leb (Z.to_nat (count + 2)) n) then
    let r := wr r ro (u8 s1) in
    let r := wr r (Nat.add ro 1%nat) (u8 s2) in
    let ost := 0 in
    Ok ((count + 2), r, ost)
   else
    Ok ((-2), r, ost).
(* lib/converters/shift_jisx0213.h:186-341 shift_jisx0213_wctomb *)
Definition shift_jisx0213_wctomb_j5 (count : Z) (jch : Z) (s1 : Z) (s2 : Z) (n : nat) (ro : nat) (r : wlog) (ost : Z) : res (Z * wlog * Z) :=
  if (s2 <? 0x3f) then
   let s2 := (s2 + 0x40) in
   shift_jisx0213_wctomb_j6 count jch s1 s2 n ro r ost
  else
   let s2 := (u32 (s2 + 0x41)) in
   shift_jisx0213_wctomb_j6 count jch s1 s2 n ro r ost.
(* lib/converters/shift_jisx0213.h:186-341 shift_jisx0213_wctomb *)
Definition shift_jisx0213_wctomb_j4 (count : Z) (jch : Z) (s1 : Z) (s2 : Z) (n : nat) (ro : nat) (r : wlog) (ost : Z) : res (Z * wlog * Z) :=
  let s1 := (Z.shiftr s1 1) in
  if (s1 <? 0x1f) then
   let s1 := (s1 + 0x81) in
   shift_jisx0213_wctomb_j5 count jch s1 s2 n ro r ost
  else
   let s1 := (s1 + 0xc1) in
   shift_jisx0213_wctomb_j5 count jch s1 s2 n ro r ost.
(* lib/converters/shift_jisx0213.h:186-341 shift_jisx0213_wctomb *)
Definition shift_jisx0213_wctomb_j3 (count : Z) (jch : Z) (s1 : Z) (s2 : Z) (n : nat) (ro : nat) (r : wlog) (ost : Z) : res (Z * wlog * Z) :=
  if (negb ((Z.land s1 1) =? 0)) then
   let s2 := (u32 (s2 + 0x5e)) in
   shift_jisx0213_wctomb_j4 count jch s1 s2 n ro r ost
  else
   shift_jisx0213_wctomb_j4 count jch s1 s2 n ro r ost.
(* lib/converters/shift_jisx0213.h:186-341 shift_jisx0213_wctomb *)
Definition shift_jisx0213_wctomb_j2 (count : Z) (wc : Z) (n : nat) (ro : nat) (r : wlog) (ost : Z) : res (Z * wlog * Z) :=
  if (((wc <? 0x80) &&& (negb (wc =? 0x5c))) &&& (negb (wc =? 0x7e))) then
   if (Nat.ltb (Z.to_nat count) n) then
    let r := wr r ro wc in
    let ost := 0 in
    Ok ((count + 1), r, ost)
   else
    Ok ((-2), r, ost)
  else
   if (wc =? 0xa5) then
    if (Nat.ltb (Z.to_nat count) n) then
     let r := wr r ro 0x5c in
     let ost := 0 in
     Ok ((count + 1), r, ost)
    else
     Ok ((-2), r, ost)
   else
    if (wc =? 0x203e) then
     if (Nat.ltb (Z.to_nat count) n) then
      let r := wr r ro 0x7e in
      let ost := 0 in
      Ok ((count + 1), r, ost)
     else
      Ok ((-2), r, ost)
    else
     if ((wc >=? 0xff61) &&& (wc <=? 0xff9f)) then
      if (Nat.ltb (Z.to_nat count) n) then
       let r := wr r ro (wc - 0xfec0) in
       let ost := 0 in
       Ok ((count + 1), r, ost)
      else
       Ok ((-2), r, ost)
     else
      bind (ucs4_to_jisx0213 wc) (fun jch =>
      if (negb (jch =? 0)) then
       let s1 := (Z.shiftr jch 8) in
       let s2 := (Z.land jch 0x7f) in
       let s1 := (u32 (s1 - 0x21)) in
       let s2 := (u32 (s2 - 0x21)) in
       if (s1 >=? 0x5e) then
        if (s1 >=? 0xcd) then
         let s1 := (s1 - 0x66) in
         shift_jisx0213_wctomb_j3 count jch s1 s2 n ro r ost
        else
         if ((s1 >=? 0x8b) ||| (s1 =? 0x87)) then
          let s1 := (s1 - 0x28) in
          shift_jisx0213_wctomb_j3 count jch s1 s2 n ro r ost
         else
          let s1 := (s1 - 0x22) in
          shift_jisx0213_wctomb_j3 count jch s1 s2 n ro r ost
       else
        shift_jisx0213_wctomb_j3 count jch s1 s2 n ro r ost
      else
       Ok ((-1), r, ost)).
(* lib/converters/shift_jisx0213.h:186-341 shift_jisx0213_wctomb *)
Definition shift_jisx0213_wctomb_not_combining (lasttwo : Z) (wc : Z) (n : nat) (ro : nat) (r : wlog) (ost : Z) : res (Z * wlog * Z) :=
  if (Nat.ltb n 2%nat) then
   Ok ((-2), r, ost)
  else
   let r := wr r ro (Z.land (Z.shiftr lasttwo 8) 0xff) in
   let r := wr r (Nat.add ro 1%nat) (Z.land lasttwo 0xff) in
   let ro := (Nat.add ro 2%nat) in
   let count := 2 in
   shift_jisx0213_wctomb_j2 count wc n ro r ost.
(* lib/converters/shift_jisx0213.h:186-341 shift_jisx0213_wctomb *)
Definition shift_jisx0213_wctomb_j (idx : Z) (lasttwo : Z) (len : Z) (wc : Z) (n : nat) (ro : nat) (r : wlog) (ost : Z) : res (Z * wlog * Z) :=
  if (len >? 0) then
   if (Nat.leb 2%nat n) then
    tget shift_jisx0213_comp_table_data (2 * idx + 1) (fun lasttwo =>
    let r := wr r ro (Z.land (Z.shiftr lasttwo 8) 0xff) in
    let r := wr r (Nat.add ro 1%nat) (Z.land lasttwo 0xff) in
    let ost := 0 in
    Ok (2, r, ost))
   else
    Ok ((-2), r, ost)
  else
   shift_jisx0213_wctomb_not_combining lasttwo wc n ro r ost.
(* lib/converters/shift_jisx0213.h:186-341 shift_jisx0213_wctomb *)
Fixpoint shift_jisx0213_wctomb_loop (fuel : nat) (idx : Z) (lasttwo : Z) (len : Z) (wc : Z) (n : nat) (ro : nat) (r : wlog) (ost : Z) {struct fuel} : res (Z * wlog * Z) :=
  match fuel with O => NoFuel | S fuel =>
  tget shift_jisx0213_comp_table_data (2 * idx) (fun x1 =>
  if (x1 =? lasttwo) then
   shift_jisx0213_wctomb_j idx lasttwo len wc n ro r ost
  else
   let idx := (u32 (idx + 1)) in
   let len := (u32 (len - 1)) in
   if (len >? 0) then
    shift_jisx0213_wctomb_loop fuel idx lasttwo len wc n ro r ost
   else
    shift_jisx0213_wctomb_j idx lasttwo len wc n ro r ost)
  end.
(* lib/converters/shift_jisx0213.h:186-341 shift_jisx0213_wctomb *)
Definition shift_jisx0213_wctomb (wc : Z) (n : nat) (ost : Z) : res (Z * wlog * Z) :=
  let r := ([] : wlog) in
  let ro := 0%nat in
  let count := 0 in
  let lasttwo := (u16 ost) in
  if (negb (lasttwo =? 0)) then
   if (wc =? 0x2e5) then
    let idx := 0 in
    let len := 1 in
    shift_jisx0213_wctomb_loop 64%nat idx lasttwo len wc n ro r ost
   else
    if (wc =? 0x2e9) then
     let idx := 1 in
     let len := 1 in
     shift_jisx0213_wctomb_loop 64%nat idx lasttwo len wc n ro r ost
    else
     if (wc =? 0x300) then
      let idx := 2 in
      let len := 5 in
      shift_jisx0213_wctomb_loop 64%nat idx lasttwo len wc n ro r ost
     else
      if (wc =? 0x301) then
       let idx := 7 in
       let len := 4 in
       shift_jisx0213_wctomb_loop 64%nat idx lasttwo len wc n ro r ost
      else
       if (wc =? 0x309a) then
        let idx := 0xb in
        let len := 0xe in
        shift_jisx0213_wctomb_loop 64%nat idx lasttwo len wc n ro r ost
       else
        shift_jisx0213_wctomb_not_combining lasttwo wc n ro r ost
  else
   shift_jisx0213_wctomb_j2 count wc n ro r ost.

(* lib/converters/shift_jisx0213.h:343-358 shift_jisx0213_reset *)
Definition shift_jisx0213_reset (n : nat) (ost : Z) : res (Z * wlog * Z) :=
  let r := ([] : wlog) in
  let lasttwo := ost in
  if (negb (lasttwo =? 0)) then
   if (Nat.ltb n 2%nat) then
    Ok ((-2), r, ost)
   else
    let r := wr r 0%nat (Z.land (Z.shiftr lasttwo 8) 0xff) in
    let r := wr r 1%nat (Z.land lasttwo 0xff) in
    Ok (2, r, ost)
  else
   Ok (0, r, ost).

