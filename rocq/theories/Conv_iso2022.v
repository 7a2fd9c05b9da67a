(** GENERATED by tools/gen.py from /repo/lib/converters; do not edit.
    Converter functions, one definition per basic block that is reached from several places. *)
From Coq Require Import ZArith List Bool.
From Verif Require Import Base Tab_jis Conv_uni Conv_sb Conv_set_ja Conv_set_zh Conv_set_ko Conv_cjk.
Import ListNotations.
Open Scope Z_scope.

(* lib/converters/iso2022_jp.h:46-152 iso2022_jp_mbtowc *)
Fixpoint iso2022_jp_mbtowc_loop (fuel : nat) (count : Z) (state : Z) (s : list Z) (n : nat) (pwc : option Z) (ibo : Z) {struct fuel} : res (Z * option Z * Z * Z) :=
  match fuel with O => NoFuel | S fuel =>
  rd s 0%nat (fun c =>
  if (c =? 0x1b) then
   ck (count + 3) (fun k1 =>
   if (Nat.ltb n (Z.to_nat k1)) then
    let ist := state in
    ck (2 * count) (fun k2 =>
    ck ((-2) - k2) (fun k3 =>
    Ok (k3, pwc, ist, ibo)))
   else
    rd s 1%nat (fun x2 =>
    if (x2 =? 0x28) then
     rd s 2%nat (fun x3 =>
     if (x3 =? 0x42) then
      let state := 0 in
      let s := skipn 3%nat s in
      ck (count + 3) (fun k4 =>
      let count := k4 in
      ck (count + 1) (fun k5 =>
      if (Nat.ltb n (Z.to_nat k5)) then
       let ist := state in
       ck (2 * count) (fun k6 =>
       ck ((-2) - k6) (fun k7 =>
       Ok (k7, pwc, ist, ibo)))
      else
       iso2022_jp_mbtowc_loop fuel count state s n pwc ibo))
     else
      if (x3 =? 0x4a) then
       let state := 1 in
       let s := skipn 3%nat s in
       ck (count + 3) (fun k8 =>
       let count := k8 in
       ck (count + 1) (fun k9 =>
       if (Nat.ltb n (Z.to_nat k9)) then
        let ist := state in
        ck (2 * count) (fun k10 =>
        ck ((-2) - k10) (fun k11 =>
        Ok (k11, pwc, ist, ibo)))
       else
        iso2022_jp_mbtowc_loop fuel count state s n pwc ibo))
      else
       let ist := state in
       ck (2 * count) (fun k12 =>
       Ok (((-1) - k12), pwc, ist, ibo)))
    else
     if (x2 =? 0x24) then
      rd s 2%nat (fun x6 =>
      if (x6 =? 0x40) then
       iso2022_jp_mbtowc_j fuel count s n pwc ibo
      else
       if (x6 =? 0x42) then
        iso2022_jp_mbtowc_j fuel count s n pwc ibo
       else
        let ist := state in
        ck (2 * count) (fun k13 =>
        Ok (((-1) - k13), pwc, ist, ibo)))
     else
      let ist := state in
      ck (2 * count) (fun k14 =>
      Ok (((-1) - k14), pwc, ist, ibo))))
  else
   if (state =? 0) then
    if (c <? 0x80) then
     bind (ascii_mbtowc s 1%nat) (fun '(ret, o) =>
     let pwc := oset pwc o in
     if (ret =? (-1)) then
      let ist := state in
      ck (2 * count) (fun k15 =>
      Ok (((-1) - k15), pwc, ist, ibo))
     else
      if (negb (ret =? 1)) then
       Abort
      else
       let ist := state in
       ck (count + 1) (fun k16 =>
       Ok (k16, pwc, ist, ibo)))
    else
     let ist := state in
     ck (2 * count) (fun k17 =>
     Ok (((-1) - k17), pwc, ist, ibo))
   else
    if (state =? 1) then
     if (c <? 0x80) then
      bind (jisx0201_mbtowc s 1%nat) (fun '(ret, o) =>
      let pwc := oset pwc o in
      if (ret =? (-1)) then
       let ist := state in
       ck (2 * count) (fun k18 =>
       Ok (((-1) - k18), pwc, ist, ibo))
      else
       if (negb (ret =? 1)) then
        Abort
       else
        let ist := state in
        ck (count + 1) (fun k19 =>
        Ok (k19, pwc, ist, ibo)))
     else
      let ist := state in
      ck (2 * count) (fun k20 =>
      Ok (((-1) - k20), pwc, ist, ibo))
    else
     if (state =? 2) then
      ck (count + 2) (fun k21 =>
      if (Nat.ltb n (Z.to_nat k21)) then
       let ist := state in
       ck (2 * count) (fun k22 =>
       ck ((-2) - k22) (fun k23 =>
       Ok (k23, pwc, ist, ibo)))
      else
       rd s 0%nat (fun x10 =>
       if (x10 <? 0x80) then
        rd s 1%nat (fun x11 =>
        if (x11 <? 0x80) then
         bind (jisx0208_mbtowc s 2%nat) (fun '(ret, o) =>
         let pwc := oset pwc o in
         if (ret =? (-1)) then
          let ist := state in
          ck (2 * count) (fun k24 =>
          Ok (((-1) - k24), pwc, ist, ibo))
         else
          if (negb (ret =? 2)) then
           Abort
          else
           let ist := state in
           ck (count + 2) (fun k25 =>
           Ok (k25, pwc, ist, ibo)))
        else
         let ist := state in
         ck (2 * count) (fun k26 =>
         Ok (((-1) - k26), pwc, ist, ibo)))
       else
        let ist := state in
        ck (2 * count) (fun k27 =>
        Ok (((-1) - k27), pwc, ist, ibo))))
     else
      Abort)
  end
with iso2022_jp_mbtowc_j (fuel : nat) (count : Z) (s : list Z) (n : nat) (pwc : option Z) (ibo : Z) {struct fuel} : res (Z * option Z * Z * Z) :=
  match fuel with O => NoFuel | S fuel =>
  let state := 2 in
  let s := skipn 3%nat s in
  ck (count + 3) (fun k28 =>
  let count := k28 in
  ck (count + 1) (fun k29 =>
  if (Nat.ltb n (Z.to_nat k29)) then
   let ist := state in
   ck (2 * count) (fun k30 =>
   ck ((-2) - k30) (fun k31 =>
   Ok (k31, pwc, ist, ibo)))
  else
   iso2022_jp_mbtowc_loop fuel count state s n pwc ibo))
  end.
(* lib/converters/iso2022_jp.h:46-152 iso2022_jp_mbtowc *)
Definition iso2022_jp_mbtowc (s : list Z) (n : nat) (ist : Z) (ibo : Z) : res (Z * option Z * Z * Z) :=
  let pwc := (None : option Z) in
  let state := ist in
  let count := 0 in
  iso2022_jp_mbtowc_loop (8 + 4 * n)%nat count state s n pwc ibo.

(* lib/converters/iso2022_jp.h:154-237 iso2022_jp_wctomb *)
Definition iso2022_jp_wctomb_j2 (buf : wlog) (state : Z) (wc : Z) (n : nat) (ro : nat) (r : wlog) (ost : Z) : res (Z * wlog * Z) :=
  bind (jisx0208_wctomb wc 2%nat) (fun '(ret, l) =>
  lappb 2%nat buf 0%nat l (fun buf =>
  if (negb (ret =? (-1))) then
   if (negb (ret =? 2)) then
    Abort
   else
    lrd buf 0%nat (fun x8 =>
    if (x8 <? 0x80) then
     lrd buf 1%nat (fun x9 =>
     if (x9 <? 0x80) then
      let count := (if (state =? 2) then 2 else 5) in
      if (Nat.ltb n (Z.to_nat count)) then
       Ok ((-2), r, ost)
      else
       if (negb (state =? 2)) then
        let r := wr r ro 0x1b in
        let r := wr r (Nat.add ro 1%nat) 0x24 in
        let r := wr r (Nat.add ro 2%nat) 0x42 in
        let ro := (Nat.add ro 3%nat) in
        let state := 2 in
        let r := wr r ro x8 in
        let r := wr r (Nat.add ro 1%nat) x9 in
        let ost := state in
        Ok (count, r, ost)
       else
        let r := wr r ro x8 in
        let r := wr r (Nat.add ro 1%nat) x9 in
        let ost := state in
        Ok (count, r, ost)
     else
      Ok ((-1), r, ost))
    else
     Ok ((-1), r, ost))
  else
   Ok ((-1), r, ost))).
(* lib/converters/iso2022_jp.h:154-237 iso2022_jp_wctomb *)
Definition iso2022_jp_wctomb_j (buf : wlog) (state : Z) (wc : Z) (n : nat) (ro : nat) (r : wlog) (ost : Z) : res (Z * wlog * Z) :=
  bind (jisx0201_wctomb wc 1%nat) (fun '(ret, l) =>
  lappb 2%nat buf 0%nat l (fun buf =>
  if (negb (ret =? (-1))) then
   if (negb (ret =? 1)) then
    Abort
   else
    lrd buf 0%nat (fun x5 =>
    if (x5 <? 0x80) then
     let count := (if (state =? 1) then 1 else 4) in
     if (Nat.ltb n (Z.to_nat count)) then
      Ok ((-2), r, ost)
     else
      if (negb (state =? 1)) then
       let r := wr r ro 0x1b in
       let r := wr r (Nat.add ro 1%nat) 0x28 in
       let r := wr r (Nat.add ro 2%nat) 0x4a in
       let ro := (Nat.add ro 3%nat) in
       let state := 1 in
       let r := wr r ro x5 in
       let ost := state in
       Ok (count, r, ost)
      else
       let r := wr r ro x5 in
       let ost := state in
       Ok (count, r, ost)
    else
     iso2022_jp_wctomb_j2 buf state wc n ro r ost)
  else
   iso2022_jp_wctomb_j2 buf state wc n ro r ost)).
(* lib/converters/iso2022_jp.h:154-237 iso2022_jp_wctomb *)
Definition iso2022_jp_wctomb (wc : Z) (n : nat) (ost : Z) : res (Z * wlog * Z) :=
  let r := ([] : wlog) in
  let ro := 0%nat in
  let state := ost in
  let buf := ([] : wlog) in
  bind (ascii_wctomb wc 1%nat) (fun '(ret, l) =>
  lappb 2%nat buf 0%nat l (fun buf =>
  if (negb (ret =? (-1))) then
   if (negb (ret =? 1)) then
    Abort
   else
    lrd buf 0%nat (fun x2 =>
    if (x2 <? 0x80) then
     let count := (if (state =? 0) then 1 else 4) in
     if (Nat.ltb n (Z.to_nat count)) then
      Ok ((-2), r, ost)
     else
      if (negb (state =? 0)) then
       let r := wr r ro 0x1b in
       let r := wr r (Nat.add ro 1%nat) 0x28 in
       let r := wr r (Nat.add ro 2%nat) 0x42 in
       let ro := (Nat.add ro 3%nat) in
       let state := 0 in
       let r := wr r ro x2 in
       let ost := state in
       Ok (count, r, ost)
      else
       let r := wr r ro x2 in
       let ost := state in
       Ok (count, r, ost)
    else
     iso2022_jp_wctomb_j buf state wc n ro r ost)
  else
   iso2022_jp_wctomb_j buf state wc n ro r ost)).

(* lib/converters/iso2022_jp.h:239-254 iso2022_jp_reset *)
Definition iso2022_jp_reset (n : nat) (ost : Z) : res (Z * wlog * Z) :=
  let r := ([] : wlog) in
  let state := ost in
  if (negb (state =? 0)) then
   if (Nat.ltb n 3%nat) then
    Ok ((-2), r, ost)
   else
    let r := wr r 0%nat 0x1b in
    let r := wr r 1%nat 0x28 in
    let r := wr r 2%nat 0x42 in
    Ok (3, r, ost)
  else
   Ok (0, r, ost).

(* lib/converters/iso2022_jp1.h:47-182 iso2022_jp1_mbtowc *)
Fixpoint iso2022_jp1_mbtowc_loop (fuel : nat) (count : Z) (state : Z) (s : list Z) (n : nat) (pwc : option Z) (ibo : Z) {struct fuel} : res (Z * option Z * Z * Z) :=
  match fuel with O => NoFuel | S fuel =>
  rd s 0%nat (fun c =>
  if (c =? 0x1b) then
   ck (count + 3) (fun k1 =>
   if (Nat.ltb n (Z.to_nat k1)) then
    let ist := state in
    ck (2 * count) (fun k2 =>
    ck ((-2) - k2) (fun k3 =>
    Ok (k3, pwc, ist, ibo)))
   else
    rd s 1%nat (fun x2 =>
    if (x2 =? 0x28) then
     rd s 2%nat (fun x3 =>
     if (x3 =? 0x42) then
      let state := 0 in
      let s := skipn 3%nat s in
      ck (count + 3) (fun k4 =>
      let count := k4 in
      ck (count + 1) (fun k5 =>
      if (Nat.ltb n (Z.to_nat k5)) then
       let ist := state in
       ck (2 * count) (fun k6 =>
       ck ((-2) - k6) (fun k7 =>
       Ok (k7, pwc, ist, ibo)))
      else
       iso2022_jp1_mbtowc_loop fuel count state s n pwc ibo))
     else
      if (x3 =? 0x4a) then
       let state := 1 in
       let s := skipn 3%nat s in
       ck (count + 3) (fun k8 =>
       let count := k8 in
       ck (count + 1) (fun k9 =>
       if (Nat.ltb n (Z.to_nat k9)) then
        let ist := state in
        ck (2 * count) (fun k10 =>
        ck ((-2) - k10) (fun k11 =>
        Ok (k11, pwc, ist, ibo)))
       else
        iso2022_jp1_mbtowc_loop fuel count state s n pwc ibo))
      else
       let ist := state in
       ck (2 * count) (fun k12 =>
       Ok (((-1) - k12), pwc, ist, ibo)))
    else
     if (x2 =? 0x24) then
      rd s 2%nat (fun x6 =>
      if (x6 =? 0x40) then
       iso2022_jp1_mbtowc_j fuel count s n pwc ibo
      else
       if (x6 =? 0x42) then
        iso2022_jp1_mbtowc_j fuel count s n pwc ibo
       else
        if (x6 =? 0x28) then
         ck (count + 4) (fun k13 =>
         if (Nat.ltb n (Z.to_nat k13)) then
          let ist := state in
          ck (2 * count) (fun k14 =>
          ck ((-2) - k14) (fun k15 =>
          Ok (k15, pwc, ist, ibo)))
         else
          rd s 3%nat (fun x9 =>
          if (x9 =? 0x44) then
           let state := 3 in
           let s := skipn 4%nat s in
           ck (count + 4) (fun k16 =>
           let count := k16 in
           ck (count + 1) (fun k17 =>
           if (Nat.ltb n (Z.to_nat k17)) then
            let ist := state in
            ck (2 * count) (fun k18 =>
            ck ((-2) - k18) (fun k19 =>
            Ok (k19, pwc, ist, ibo)))
           else
            iso2022_jp1_mbtowc_loop fuel count state s n pwc ibo))
          else
           let ist := state in
           ck (2 * count) (fun k20 =>
           Ok (((-1) - k20), pwc, ist, ibo))))
        else
         let ist := state in
         ck (2 * count) (fun k21 =>
         Ok (((-1) - k21), pwc, ist, ibo)))
     else
      let ist := state in
      ck (2 * count) (fun k22 =>
      Ok (((-1) - k22), pwc, ist, ibo))))
  else
   if (state =? 0) then
    if (c <? 0x80) then
     bind (ascii_mbtowc s 1%nat) (fun '(ret, o) =>
     let pwc := oset pwc o in
     if (ret =? (-1)) then
      let ist := state in
      ck (2 * count) (fun k23 =>
      Ok (((-1) - k23), pwc, ist, ibo))
     else
      if (negb (ret =? 1)) then
       Abort
      else
       let ist := state in
       ck (count + 1) (fun k24 =>
       Ok (k24, pwc, ist, ibo)))
    else
     let ist := state in
     ck (2 * count) (fun k25 =>
     Ok (((-1) - k25), pwc, ist, ibo))
   else
    if (state =? 1) then
     if (c <? 0x80) then
      bind (jisx0201_mbtowc s 1%nat) (fun '(ret, o) =>
      let pwc := oset pwc o in
      if (ret =? (-1)) then
       let ist := state in
       ck (2 * count) (fun k26 =>
       Ok (((-1) - k26), pwc, ist, ibo))
      else
       if (negb (ret =? 1)) then
        Abort
       else
        let ist := state in
        ck (count + 1) (fun k27 =>
        Ok (k27, pwc, ist, ibo)))
     else
      let ist := state in
      ck (2 * count) (fun k28 =>
      Ok (((-1) - k28), pwc, ist, ibo))
    else
     if (state =? 2) then
      ck (count + 2) (fun k29 =>
      if (Nat.ltb n (Z.to_nat k29)) then
       let ist := state in
       ck (2 * count) (fun k30 =>
       ck ((-2) - k30) (fun k31 =>
       Ok (k31, pwc, ist, ibo)))
      else
       rd s 0%nat (fun x12 =>
       if (x12 <? 0x80) then
        rd s 1%nat (fun x13 =>
        if (x13 <? 0x80) then
         bind (jisx0208_mbtowc s 2%nat) (fun '(ret, o) =>
         let pwc := oset pwc o in
         if (ret =? (-1)) then
          let ist := state in
          ck (2 * count) (fun k32 =>
          Ok (((-1) - k32), pwc, ist, ibo))
         else
          if (negb (ret =? 2)) then
           Abort
          else
           let ist := state in
           ck (count + 2) (fun k33 =>
           Ok (k33, pwc, ist, ibo)))
        else
         let ist := state in
         ck (2 * count) (fun k34 =>
         Ok (((-1) - k34), pwc, ist, ibo)))
       else
        let ist := state in
        ck (2 * count) (fun k35 =>
        Ok (((-1) - k35), pwc, ist, ibo))))
     else
      if (state =? 3) then
       ck (count + 2) (fun k36 =>
       if (Nat.ltb n (Z.to_nat k36)) then
        let ist := state in
        ck (2 * count) (fun k37 =>
        ck ((-2) - k37) (fun k38 =>
        Ok (k38, pwc, ist, ibo)))
       else
        rd s 0%nat (fun x15 =>
        if (x15 <? 0x80) then
         rd s 1%nat (fun x16 =>
         if (x16 <? 0x80) then
          bind (jisx0212_mbtowc s 2%nat) (fun '(ret, o) =>
          let pwc := oset pwc o in
          if (ret =? (-1)) then
           let ist := state in
           ck (2 * count) (fun k39 =>
           Ok (((-1) - k39), pwc, ist, ibo))
          else
           if (negb (ret =? 2)) then
            Abort
           else
            let ist := state in
            ck (count + 2) (fun k40 =>
            Ok (k40, pwc, ist, ibo)))
         else
          let ist := state in
          ck (2 * count) (fun k41 =>
          Ok (((-1) - k41), pwc, ist, ibo)))
        else
         let ist := state in
         ck (2 * count) (fun k42 =>
         Ok (((-1) - k42), pwc, ist, ibo))))
      else
       Abort)
  end
with iso2022_jp1_mbtowc_j (fuel : nat) (count : Z) (s : list Z) (n : nat) (pwc : option Z) (ibo : Z) {struct fuel} : res (Z * option Z * Z * Z) :=
  match fuel with O => NoFuel | S fuel =>
  let state := 2 in
  let s := skipn 3%nat s in
  ck (count + 3) (fun k43 =>
  let count := k43 in
  ck (count + 1) (fun k44 =>
  if (Nat.ltb n (Z.to_nat k44)) then
   let ist := state in
   ck (2 * count) (fun k45 =>
   ck ((-2) - k45) (fun k46 =>
   Ok (k46, pwc, ist, ibo)))
  else
   iso2022_jp1_mbtowc_loop fuel count state s n pwc ibo))
  end.
(* lib/converters/iso2022_jp1.h:47-182 iso2022_jp1_mbtowc *)
Definition iso2022_jp1_mbtowc (s : list Z) (n : nat) (ist : Z) (ibo : Z) : res (Z * option Z * Z * Z) :=
  let pwc := (None : option Z) in
  let state := ist in
  let count := 0 in
  iso2022_jp1_mbtowc_loop (8 + 4 * n)%nat count state s n pwc ibo.

(* lib/converters/iso2022_jp1.h:184-294 iso2022_jp1_wctomb *)
Definition iso2022_jp1_wctomb_j3 (buf : wlog) (state : Z) (wc : Z) (n : nat) (ro : nat) (r : wlog) (ost : Z) : res (Z * wlog * Z) :=
  bind (jisx0212_wctomb wc 2%nat) (fun '(ret, l) =>
  lappb 2%nat buf 0%nat l (fun buf =>
  if (negb (ret =? (-1))) then
   if (negb (ret =? 2)) then
    Abort
   else
    lrd buf 0%nat (fun x13 =>
    if (x13 <? 0x80) then
     lrd buf 1%nat (fun x14 =>
     if (x14 <? 0x80) then
      let count := (if (state =? 3) then 2 else 6) in
      if (Nat.ltb n (Z.to_nat count)) then
       Ok ((-2), r, ost)
      else
       if (negb (state =? 3)) then
        let r := wr r ro 0x1b in
        let r := wr r (Nat.add ro 1%nat) 0x24 in
        let r := wr r (Nat.add ro 2%nat) 0x28 in
        let r := wr r (Nat.add ro 3%nat) 0x44 in
        let ro := (Nat.add ro 4%nat) in
        let state := 3 in
        let r := wr r ro x13 in
        let r := wr r (Nat.add ro 1%nat) x14 in
        let ost := state in
        Ok (count, r, ost)
       else
        let r := wr r ro x13 in
        let r := wr r (Nat.add ro 1%nat) x14 in
        let ost := state in
        Ok (count, r, ost)
     else
      Ok ((-1), r, ost))
    else
     Ok ((-1), r, ost))
  else
   Ok ((-1), r, ost))).
(* lib/converters/iso2022_jp1.h:184-294 iso2022_jp1_wctomb *)
Definition iso2022_jp1_wctomb_j2 (buf : wlog) (state : Z) (wc : Z) (n : nat) (ro : nat) (r : wlog) (ost : Z) : res (Z * wlog * Z) :=
  bind (jisx0208_wctomb wc 2%nat) (fun '(ret, l) =>
  lappb 2%nat buf 0%nat l (fun buf =>
  if (negb (ret =? (-1))) then
   if (negb (ret =? 2)) then
    Abort
   else
    lrd buf 0%nat (fun x8 =>
    if (x8 <? 0x80) then
     lrd buf 1%nat (fun x9 =>
     if (x9 <? 0x80) then
      let count := (if (state =? 2) then 2 else 5) in
      if (Nat.ltb n (Z.to_nat count)) then
       Ok ((-2), r, ost)
      else
       if (negb (state =? 2)) then
        let r := wr r ro 0x1b in
        let r := wr r (Nat.add ro 1%nat) 0x24 in
        let r := wr r (Nat.add ro 2%nat) 0x42 in
        let ro := (Nat.add ro 3%nat) in
        let state := 2 in
        let r := wr r ro x8 in
        let r := wr r (Nat.add ro 1%nat) x9 in
        let ost := state in
        Ok (count, r, ost)
       else
        let r := wr r ro x8 in
        let r := wr r (Nat.add ro 1%nat) x9 in
        let ost := state in
        Ok (count, r, ost)
     else
      iso2022_jp1_wctomb_j3 buf state wc n ro r ost)
    else
     iso2022_jp1_wctomb_j3 buf state wc n ro r ost)
  else
   iso2022_jp1_wctomb_j3 buf state wc n ro r ost)).
(* lib/converters/iso2022_jp1.h:184-294 iso2022_jp1_wctomb *)
Definition iso2022_jp1_wctomb_j (buf : wlog) (state : Z) (wc : Z) (n : nat) (ro : nat) (r : wlog) (ost : Z) : res (Z * wlog * Z) :=
  bind (jisx0201_wctomb wc 1%nat) (fun '(ret, l) =>
  lappb 2%nat buf 0%nat l (fun buf =>
  if (negb (ret =? (-1))) then
   if (negb (ret =? 1)) then
    Abort
   else
    lrd buf 0%nat (fun x5 =>
    if (x5 <? 0x80) then
     let count := (if (state =? 1) then 1 else 4) in
     if (Nat.ltb n (Z.to_nat count)) then
      Ok ((-2), r, ost)
     else
      if (negb (state =? 1)) then
       let r := wr r ro 0x1b in
       let r := wr r (Nat.add ro 1%nat) 0x28 in
       let r := wr r (Nat.add ro 2%nat) 0x4a in
       let ro := (Nat.add ro 3%nat) in
       let state := 1 in
       let r := wr r ro x5 in
       let ost := state in
       Ok (count, r, ost)
      else
       let r := wr r ro x5 in
       let ost := state in
       Ok (count, r, ost)
    else
     iso2022_jp1_wctomb_j2 buf state wc n ro r ost)
  else
   iso2022_jp1_wctomb_j2 buf state wc n ro r ost)).
(* lib/converters/iso2022_jp1.h:184-294 iso2022_jp1_wctomb *)
Definition iso2022_jp1_wctomb (wc : Z) (n : nat) (ost : Z) : res (Z * wlog * Z) :=
  let r := ([] : wlog) in
  let ro := 0%nat in
  let state := ost in
  let buf := ([] : wlog) in
  bind (ascii_wctomb wc 1%nat) (fun '(ret, l) =>
  lappb 2%nat buf 0%nat l (fun buf =>
  if (negb (ret =? (-1))) then
   if (negb (ret =? 1)) then
    Abort
   else
    lrd buf 0%nat (fun x2 =>
    if (x2 <? 0x80) then
     let count := (if (state =? 0) then 1 else 4) in
     if (Nat.ltb n (Z.to_nat count)) then
      Ok ((-2), r, ost)
     else
      if (negb (state =? 0)) then
       let r := wr r ro 0x1b in
       let r := wr r (Nat.add ro 1%nat) 0x28 in
       let r := wr r (Nat.add ro 2%nat) 0x42 in
       let ro := (Nat.add ro 3%nat) in
       let state := 0 in
       let r := wr r ro x2 in
       let ost := state in
       Ok (count, r, ost)
      else
       let r := wr r ro x2 in
       let ost := state in
       Ok (count, r, ost)
    else
     iso2022_jp1_wctomb_j buf state wc n ro r ost)
  else
   iso2022_jp1_wctomb_j buf state wc n ro r ost)).

(* lib/converters/iso2022_jp1.h:296-311 iso2022_jp1_reset *)
Definition iso2022_jp1_reset (n : nat) (ost : Z) : res (Z * wlog * Z) :=
  let r := ([] : wlog) in
  let state := ost in
  if (negb (state =? 0)) then
   if (Nat.ltb n 3%nat) then
    Ok ((-2), r, ost)
   else
    let r := wr r 0%nat 0x1b in
    let r := wr r 1%nat 0x28 in
    let r := wr r 2%nat 0x42 in
    Ok (3, r, ost)
  else
   Ok (0, r, ost).

(* lib/converters/iso2022_jp2.h:389-397 conversion_lists *)
Definition conversion_lists : tab := mk [
 [22730;22730;22156;22667]].

(* lib/converters/iso2022_jp2.h:66-351 iso2022_jp2_mbtowc *)
Definition iso2022_jp2_mbtowc_j2 (count : Z) (state1 : Z) (pwc : option Z) (ibo : Z) : res (Z * option Z * Z * Z) :=
  let state2 := 0 in
  let state := (Z.lor (Z.shiftl state2 8) state1) in
  let ist := state in
  ck (count + 1) (fun k1 =>
  Ok (k1, pwc, ist, ibo)).
(* lib/converters/iso2022_jp2.h:66-351 iso2022_jp2_mbtowc *)
Definition iso2022_jp2_mbtowc_j3 (count : Z) (state1 : Z) (pwc : option Z) (ibo : Z) : res (Z * option Z * Z * Z) :=
  let state2 := 0 in
  let state := (Z.lor (Z.shiftl state2 8) state1) in
  let ist := state in
  ck (count + 1) (fun k2 =>
  Ok (k2, pwc, ist, ibo)).
(* lib/converters/iso2022_jp2.h:66-351 iso2022_jp2_mbtowc *)
Fixpoint iso2022_jp2_mbtowc_loop (fuel : nat) (count : Z) (state1 : Z) (state2 : Z) (s : list Z) (n : nat) (pwc : option Z) (ibo : Z) {struct fuel} : res (Z * option Z * Z * Z) :=
  match fuel with O => NoFuel | S fuel =>
  rd s 0%nat (fun c =>
  if (c =? 0x1b) then
   ck (count + 3) (fun k3 =>
   if (Nat.ltb n (Z.to_nat k3)) then
    let state := (Z.lor (Z.shiftl state2 8) state1) in
    let ist := state in
    ck (2 * count) (fun k4 =>
    ck ((-2) - k4) (fun k5 =>
    Ok (k5, pwc, ist, ibo)))
   else
    rd s 1%nat (fun x2 =>
    if (x2 =? 0x28) then
     rd s 2%nat (fun x3 =>
     if (x3 =? 0x42) then
      let state1 := 0 in
      let s := skipn 3%nat s in
      ck (count + 3) (fun k6 =>
      let count := k6 in
      ck (count + 1) (fun k7 =>
      if (Nat.ltb n (Z.to_nat k7)) then
       let state := (Z.lor (Z.shiftl state2 8) state1) in
       let ist := state in
       ck (2 * count) (fun k8 =>
       ck ((-2) - k8) (fun k9 =>
       Ok (k9, pwc, ist, ibo)))
      else
       iso2022_jp2_mbtowc_loop fuel count state1 state2 s n pwc ibo))
     else
      if (x3 =? 0x4a) then
       let state1 := 1 in
       let s := skipn 3%nat s in
       ck (count + 3) (fun k10 =>
       let count := k10 in
       ck (count + 1) (fun k11 =>
       if (Nat.ltb n (Z.to_nat k11)) then
        let state := (Z.lor (Z.shiftl state2 8) state1) in
        let ist := state in
        ck (2 * count) (fun k12 =>
        ck ((-2) - k12) (fun k13 =>
        Ok (k13, pwc, ist, ibo)))
       else
        iso2022_jp2_mbtowc_loop fuel count state1 state2 s n pwc ibo))
      else
       if (x3 =? 0x49) then
        let state1 := 2 in
        let s := skipn 3%nat s in
        ck (count + 3) (fun k14 =>
        let count := k14 in
        ck (count + 1) (fun k15 =>
        if (Nat.ltb n (Z.to_nat k15)) then
         let state := (Z.lor (Z.shiftl state2 8) state1) in
         let ist := state in
         ck (2 * count) (fun k16 =>
         ck ((-2) - k16) (fun k17 =>
         Ok (k17, pwc, ist, ibo)))
        else
         iso2022_jp2_mbtowc_loop fuel count state1 state2 s n pwc ibo))
       else
        let state := (Z.lor (Z.shiftl state2 8) state1) in
        let ist := state in
        ck (2 * count) (fun k18 =>
        Ok (((-1) - k18), pwc, ist, ibo)))
    else
     if (x2 =? 0x24) then
      rd s 2%nat (fun x7 =>
      if (x7 =? 0x40) then
       iso2022_jp2_mbtowc_j fuel count state2 s n pwc ibo
      else
       if (x7 =? 0x42) then
        iso2022_jp2_mbtowc_j fuel count state2 s n pwc ibo
       else
        if (x7 =? 0x41) then
         let state1 := 5 in
         let s := skipn 3%nat s in
         ck (count + 3) (fun k19 =>
         let count := k19 in
         ck (count + 1) (fun k20 =>
         if (Nat.ltb n (Z.to_nat k20)) then
          let state := (Z.lor (Z.shiftl state2 8) state1) in
          let ist := state in
          ck (2 * count) (fun k21 =>
          ck ((-2) - k21) (fun k22 =>
          Ok (k22, pwc, ist, ibo)))
         else
          iso2022_jp2_mbtowc_loop fuel count state1 state2 s n pwc ibo))
        else
         if (x7 =? 0x28) then
          ck (count + 4) (fun k23 =>
          if (Nat.ltb n (Z.to_nat k23)) then
           let state := (Z.lor (Z.shiftl state2 8) state1) in
           let ist := state in
           ck (2 * count) (fun k24 =>
           ck ((-2) - k24) (fun k25 =>
           Ok (k25, pwc, ist, ibo)))
          else
           rd s 3%nat (fun x11 =>
           if (x11 =? 0x44) then
            let state1 := 4 in
            let s := skipn 4%nat s in
            ck (count + 4) (fun k26 =>
            let count := k26 in
            ck (count + 1) (fun k27 =>
            if (Nat.ltb n (Z.to_nat k27)) then
             let state := (Z.lor (Z.shiftl state2 8) state1) in
             let ist := state in
             ck (2 * count) (fun k28 =>
             ck ((-2) - k28) (fun k29 =>
             Ok (k29, pwc, ist, ibo)))
            else
             iso2022_jp2_mbtowc_loop fuel count state1 state2 s n pwc ibo))
           else
            if (x11 =? 0x43) then
             let state1 := 6 in
             let s := skipn 4%nat s in
             ck (count + 4) (fun k30 =>
             let count := k30 in
             ck (count + 1) (fun k31 =>
             if (Nat.ltb n (Z.to_nat k31)) then
              let state := (Z.lor (Z.shiftl state2 8) state1) in
              let ist := state in
              ck (2 * count) (fun k32 =>
              ck ((-2) - k32) (fun k33 =>
              Ok (k33, pwc, ist, ibo)))
             else
              iso2022_jp2_mbtowc_loop fuel count state1 state2 s n pwc ibo))
            else
             let state := (Z.lor (Z.shiftl state2 8) state1) in
             let ist := state in
             ck (2 * count) (fun k34 =>
             Ok (((-1) - k34), pwc, ist, ibo))))
         else
          let state := (Z.lor (Z.shiftl state2 8) state1) in
          let ist := state in
          ck (2 * count) (fun k35 =>
          Ok (((-1) - k35), pwc, ist, ibo)))
     else
      if (x2 =? 0x2e) then
       ck (count + 3) (fun k36 =>
       if (Nat.ltb n (Z.to_nat k36)) then
        let state := (Z.lor (Z.shiftl state2 8) state1) in
        let ist := state in
        ck (2 * count) (fun k37 =>
        ck ((-2) - k37) (fun k38 =>
        Ok (k38, pwc, ist, ibo)))
       else
        rd s 2%nat (fun x14 =>
        if (x14 =? 0x41) then
         let state2 := 1 in
         let s := skipn 3%nat s in
         ck (count + 3) (fun k39 =>
         let count := k39 in
         ck (count + 1) (fun k40 =>
         if (Nat.ltb n (Z.to_nat k40)) then
          let state := (Z.lor (Z.shiftl state2 8) state1) in
          let ist := state in
          ck (2 * count) (fun k41 =>
          ck ((-2) - k41) (fun k42 =>
          Ok (k42, pwc, ist, ibo)))
         else
          iso2022_jp2_mbtowc_loop fuel count state1 state2 s n pwc ibo))
        else
         if (x14 =? 0x46) then
          let state2 := 2 in
          let s := skipn 3%nat s in
          ck (count + 3) (fun k43 =>
          let count := k43 in
          ck (count + 1) (fun k44 =>
          if (Nat.ltb n (Z.to_nat k44)) then
           let state := (Z.lor (Z.shiftl state2 8) state1) in
           let ist := state in
           ck (2 * count) (fun k45 =>
           ck ((-2) - k45) (fun k46 =>
           Ok (k46, pwc, ist, ibo)))
          else
           iso2022_jp2_mbtowc_loop fuel count state1 state2 s n pwc ibo))
         else
          let state := (Z.lor (Z.shiftl state2 8) state1) in
          let ist := state in
          ck (2 * count) (fun k47 =>
          Ok (((-1) - k47), pwc, ist, ibo))))
      else
       if (x2 =? 0x4e) then
        if (state2 =? 0) then
         let state := (Z.lor (Z.shiftl state2 8) state1) in
         let ist := state in
         ck (2 * count) (fun k48 =>
         Ok (((-1) - k48), pwc, ist, ibo))
        else
         if (state2 =? 1) then
          rd s 2%nat (fun x17 =>
          if (x17 <? 0x80) then
           let buf := (x17 + 0x80) in
           bind (iso8859_1_mbtowc [buf] 1%nat) (fun '(ret, o) =>
           let pwc := oset pwc o in
           if (ret =? (-1)) then
            let state := (Z.lor (Z.shiftl state2 8) state1) in
            let ist := state in
            ck (2 * count) (fun k49 =>
            Ok (((-1) - k49), pwc, ist, ibo))
           else
            if (negb (ret =? 1)) then
             Abort
            else
             let state := (Z.lor (Z.shiftl state2 8) state1) in
             let ist := state in
             ck (count + 3) (fun k50 =>
             Ok (k50, pwc, ist, ibo)))
          else
           let state := (Z.lor (Z.shiftl state2 8) state1) in
           let ist := state in
           ck (2 * count) (fun k51 =>
           Ok (((-1) - k51), pwc, ist, ibo)))
         else
          if (state2 =? 2) then
           rd s 2%nat (fun x20 =>
           if (x20 <? 0x80) then
            let buf := (x20 + 0x80) in
            bind (iso8859_7_mbtowc [buf] 1%nat) (fun '(ret, o) =>
            let pwc := oset pwc o in
            if (ret =? (-1)) then
             let state := (Z.lor (Z.shiftl state2 8) state1) in
             let ist := state in
             ck (2 * count) (fun k52 =>
             Ok (((-1) - k52), pwc, ist, ibo))
            else
             if (negb (ret =? 1)) then
              Abort
             else
              let state := (Z.lor (Z.shiftl state2 8) state1) in
              let ist := state in
              ck (count + 3) (fun k53 =>
              Ok (k53, pwc, ist, ibo)))
           else
            let state := (Z.lor (Z.shiftl state2 8) state1) in
            let ist := state in
            ck (2 * count) (fun k54 =>
            Ok (((-1) - k54), pwc, ist, ibo)))
          else
           Abort
       else
        let state := (Z.lor (Z.shiftl state2 8) state1) in
        let ist := state in
        ck (2 * count) (fun k55 =>
        Ok (((-1) - k55), pwc, ist, ibo))))
  else
   if (state1 =? 0) then
    if (c <? 0x80) then
     bind (ascii_mbtowc s 1%nat) (fun '(ret, o) =>
     let pwc := oset pwc o in
     if (ret =? (-1)) then
      let state := (Z.lor (Z.shiftl state2 8) state1) in
      let ist := state in
      ck (2 * count) (fun k56 =>
      Ok (((-1) - k56), pwc, ist, ibo))
     else
      if (negb (ret =? 1)) then
       Abort
      else
       oget pwc (fun x24 =>
       if (x24 =? 0xa) then
        iso2022_jp2_mbtowc_j2 count state1 pwc ibo
       else
        if (x24 =? 0xd) then
         iso2022_jp2_mbtowc_j2 count state1 pwc ibo
        else
         let state := (Z.lor (Z.shiftl state2 8) state1) in
         let ist := state in
         ck (count + 1) (fun k57 =>
         Ok (k57, pwc, ist, ibo))))
    else
     let state := (Z.lor (Z.shiftl state2 8) state1) in
     let ist := state in
     ck (2 * count) (fun k58 =>
     Ok (((-1) - k58), pwc, ist, ibo))
   else
    if (state1 =? 1) then
     if (c <? 0x80) then
      bind (jisx0201_mbtowc s 1%nat) (fun '(ret, o) =>
      let pwc := oset pwc o in
      if (ret =? (-1)) then
       let state := (Z.lor (Z.shiftl state2 8) state1) in
       let ist := state in
       ck (2 * count) (fun k59 =>
       Ok (((-1) - k59), pwc, ist, ibo))
      else
       if (negb (ret =? 1)) then
        Abort
       else
        oget pwc (fun x27 =>
        if (x27 =? 0xa) then
         iso2022_jp2_mbtowc_j3 count state1 pwc ibo
        else
         if (x27 =? 0xd) then
          iso2022_jp2_mbtowc_j3 count state1 pwc ibo
         else
          let state := (Z.lor (Z.shiftl state2 8) state1) in
          let ist := state in
          ck (count + 1) (fun k60 =>
          Ok (k60, pwc, ist, ibo))))
     else
      let state := (Z.lor (Z.shiftl state2 8) state1) in
      let ist := state in
      ck (2 * count) (fun k61 =>
      Ok (((-1) - k61), pwc, ist, ibo))
    else
     if (state1 =? 2) then
      if (c <? 0x80) then
       let buf := (c + 0x80) in
       bind (jisx0201_mbtowc [buf] 1%nat) (fun '(ret, o) =>
       let pwc := oset pwc o in
       if (ret =? (-1)) then
        let state := (Z.lor (Z.shiftl state2 8) state1) in
        let ist := state in
        ck (2 * count) (fun k62 =>
        Ok (((-1) - k62), pwc, ist, ibo))
       else
        if (negb (ret =? 1)) then
         Abort
        else
         let state := (Z.lor (Z.shiftl state2 8) state1) in
         let ist := state in
         ck (count + 1) (fun k63 =>
         Ok (k63, pwc, ist, ibo)))
      else
       let state := (Z.lor (Z.shiftl state2 8) state1) in
       let ist := state in
       ck (2 * count) (fun k64 =>
       Ok (((-1) - k64), pwc, ist, ibo))
     else
      if (state1 =? 3) then
       ck (count + 2) (fun k65 =>
       if (Nat.ltb n (Z.to_nat k65)) then
        let state := (Z.lor (Z.shiftl state2 8) state1) in
        let ist := state in
        ck (2 * count) (fun k66 =>
        ck ((-2) - k66) (fun k67 =>
        Ok (k67, pwc, ist, ibo)))
       else
        rd s 0%nat (fun x30 =>
        if (x30 <? 0x80) then
         rd s 1%nat (fun x31 =>
         if (x31 <? 0x80) then
          bind (jisx0208_mbtowc s 2%nat) (fun '(ret, o) =>
          let pwc := oset pwc o in
          if (ret =? (-1)) then
           let state := (Z.lor (Z.shiftl state2 8) state1) in
           let ist := state in
           ck (2 * count) (fun k68 =>
           Ok (((-1) - k68), pwc, ist, ibo))
          else
           if (negb (ret =? 2)) then
            Abort
           else
            let state := (Z.lor (Z.shiftl state2 8) state1) in
            let ist := state in
            ck (count + 2) (fun k69 =>
            Ok (k69, pwc, ist, ibo)))
         else
          let state := (Z.lor (Z.shiftl state2 8) state1) in
          let ist := state in
          ck (2 * count) (fun k70 =>
          Ok (((-1) - k70), pwc, ist, ibo)))
        else
         let state := (Z.lor (Z.shiftl state2 8) state1) in
         let ist := state in
         ck (2 * count) (fun k71 =>
         Ok (((-1) - k71), pwc, ist, ibo))))
      else
       if (state1 =? 4) then
        ck (count + 2) (fun k72 =>
        if (Nat.ltb n (Z.to_nat k72)) then
         let state := (Z.lor (Z.shiftl state2 8) state1) in
         let ist := state in
         ck (2 * count) (fun k73 =>
         ck ((-2) - k73) (fun k74 =>
         Ok (k74, pwc, ist, ibo)))
        else
         rd s 0%nat (fun x33 =>
         if (x33 <? 0x80) then
          rd s 1%nat (fun x34 =>
          if (x34 <? 0x80) then
           bind (jisx0212_mbtowc s 2%nat) (fun '(ret, o) =>
           let pwc := oset pwc o in
           if (ret =? (-1)) then
            let state := (Z.lor (Z.shiftl state2 8) state1) in
            let ist := state in
            ck (2 * count) (fun k75 =>
            Ok (((-1) - k75), pwc, ist, ibo))
           else
            if (negb (ret =? 2)) then
             Abort
            else
             let state := (Z.lor (Z.shiftl state2 8) state1) in
             let ist := state in
             ck (count + 2) (fun k76 =>
             Ok (k76, pwc, ist, ibo)))
          else
           let state := (Z.lor (Z.shiftl state2 8) state1) in
           let ist := state in
           ck (2 * count) (fun k77 =>
           Ok (((-1) - k77), pwc, ist, ibo)))
         else
          let state := (Z.lor (Z.shiftl state2 8) state1) in
          let ist := state in
          ck (2 * count) (fun k78 =>
          Ok (((-1) - k78), pwc, ist, ibo))))
       else
        if (state1 =? 5) then
         ck (count + 2) (fun k79 =>
         if (Nat.ltb n (Z.to_nat k79)) then
          let state := (Z.lor (Z.shiftl state2 8) state1) in
          let ist := state in
          ck (2 * count) (fun k80 =>
          ck ((-2) - k80) (fun k81 =>
          Ok (k81, pwc, ist, ibo)))
         else
          rd s 0%nat (fun x36 =>
          if (x36 <? 0x80) then
           rd s 1%nat (fun x37 =>
           if (x37 <? 0x80) then
            bind (gb2312_mbtowc s 2%nat) (fun '(ret, o) =>
            let pwc := oset pwc o in
            if (ret =? (-1)) then
             let state := (Z.lor (Z.shiftl state2 8) state1) in
             let ist := state in
             ck (2 * count) (fun k82 =>
             Ok (((-1) - k82), pwc, ist, ibo))
            else
             if (negb (ret =? 2)) then
              Abort
             else
              let state := (Z.lor (Z.shiftl state2 8) state1) in
              let ist := state in
              ck (count + 2) (fun k83 =>
              Ok (k83, pwc, ist, ibo)))
           else
            let state := (Z.lor (Z.shiftl state2 8) state1) in
            let ist := state in
            ck (2 * count) (fun k84 =>
            Ok (((-1) - k84), pwc, ist, ibo)))
          else
           let state := (Z.lor (Z.shiftl state2 8) state1) in
           let ist := state in
           ck (2 * count) (fun k85 =>
           Ok (((-1) - k85), pwc, ist, ibo))))
        else
         if (state1 =? 6) then
          ck (count + 2) (fun k86 =>
          if (Nat.ltb n (Z.to_nat k86)) then
           let state := (Z.lor (Z.shiftl state2 8) state1) in
           let ist := state in
           ck (2 * count) (fun k87 =>
           ck ((-2) - k87) (fun k88 =>
           Ok (k88, pwc, ist, ibo)))
          else
           rd s 0%nat (fun x39 =>
           if (x39 <? 0x80) then
            rd s 1%nat (fun x40 =>
            if (x40 <? 0x80) then
             bind (ksc5601_mbtowc s 2%nat) (fun '(ret, o) =>
             let pwc := oset pwc o in
             if (ret =? (-1)) then
              let state := (Z.lor (Z.shiftl state2 8) state1) in
              let ist := state in
              ck (2 * count) (fun k89 =>
              Ok (((-1) - k89), pwc, ist, ibo))
             else
              if (negb (ret =? 2)) then
               Abort
              else
               let state := (Z.lor (Z.shiftl state2 8) state1) in
               let ist := state in
               ck (count + 2) (fun k90 =>
               Ok (k90, pwc, ist, ibo)))
            else
             let state := (Z.lor (Z.shiftl state2 8) state1) in
             let ist := state in
             ck (2 * count) (fun k91 =>
             Ok (((-1) - k91), pwc, ist, ibo)))
           else
            let state := (Z.lor (Z.shiftl state2 8) state1) in
            let ist := state in
            ck (2 * count) (fun k92 =>
            Ok (((-1) - k92), pwc, ist, ibo))))
         else
          Abort)
  end
with iso2022_jp2_mbtowc_j (fuel : nat) (count : Z) (state2 : Z) (s : list Z) (n : nat) (pwc : option Z) (ibo : Z) {struct fuel} : res (Z * option Z * Z * Z) :=
  match fuel with O => NoFuel | S fuel =>
  let state1 := 3 in
  let s := skipn 3%nat s in
  ck (count + 3) (fun k93 =>
  let count := k93 in
  ck (count + 1) (fun k94 =>
  if (Nat.ltb n (Z.to_nat k94)) then
   let state := (Z.lor (Z.shiftl state2 8) state1) in
   let ist := state in
   ck (2 * count) (fun k95 =>
   ck ((-2) - k95) (fun k96 =>
   Ok (k96, pwc, ist, ibo)))
  else
   iso2022_jp2_mbtowc_loop fuel count state1 state2 s n pwc ibo))
  end.
(* lib/converters/iso2022_jp2.h:66-351 iso2022_jp2_mbtowc *)
Definition iso2022_jp2_mbtowc (s : list Z) (n : nat) (ist : Z) (ibo : Z) : res (Z * option Z * Z * Z) :=
  let pwc := (None : option Z) in
  let state := ist in
  let state1 := (Z.land state 0xff) in
  let state2 := (Z.shiftr state 8) in
  let count := 0 in
  iso2022_jp2_mbtowc_loop (8 + 4 * n)%nat count state1 state2 s n pwc ibo.

(* lib/converters/iso2022_jp2.h:372-771 iso2022_jp2_wctomb *)
Definition iso2022_jp2_wctomb_j2 (state1 : Z) (state2 : Z) (state3 : Z) (r : wlog) : res (Z * wlog * Z) :=
  if (state3 >=? 4) then
   let state3 := 0 in
   let state := (Z.lor (Z.lor (Z.shiftl state3 0x10) (Z.shiftl state2 8)) state1) in
   let ost := state in
   Ok (0, r, ost)
  else
   let state := (Z.lor (Z.lor (Z.shiftl state3 0x10) (Z.shiftl state2 8)) state1) in
   let ost := state in
   Ok (0, r, ost).
(* lib/converters/iso2022_jp2.h:372-771 iso2022_jp2_wctomb *)
Definition iso2022_jp2_wctomb_j (c : Z) (state1 : Z) (state2 : Z) (state3 : Z) (r : wlog) : res (Z * wlog * Z) :=
  let x1 := c in
  if (x1 =? 1) then
   let state3 := 4 in
   let state := (Z.lor (Z.lor (Z.shiftl state3 0x10) (Z.shiftl state2 8)) state1) in
   let ost := state in
   Ok (0, r, ost)
  else
   if (x1 =? 0x6a) then
    if (state3 =? 4) then
     let state3 := 5 in
     let state := (Z.lor (Z.lor (Z.shiftl state3 0x10) (Z.shiftl state2 8)) state1) in
     let ost := state in
     Ok (0, r, ost)
    else
     iso2022_jp2_wctomb_j2 state1 state2 state3 r
   else
    if (x1 =? 0x61) then
     if (state3 =? 5) then
      let state3 := 1 in
      let state := (Z.lor (Z.lor (Z.shiftl state3 0x10) (Z.shiftl state2 8)) state1) in
      let ost := state in
      Ok (0, r, ost)
     else
      iso2022_jp2_wctomb_j2 state1 state2 state3 r
    else
     if (x1 =? 0x6b) then
      if (state3 =? 4) then
       let state3 := 6 in
       let state := (Z.lor (Z.lor (Z.shiftl state3 0x10) (Z.shiftl state2 8)) state1) in
       let ost := state in
       Ok (0, r, ost)
      else
       iso2022_jp2_wctomb_j2 state1 state2 state3 r
     else
      if (x1 =? 0x6f) then
       if (state3 =? 6) then
        let state3 := 2 in
        let state := (Z.lor (Z.lor (Z.shiftl state3 0x10) (Z.shiftl state2 8)) state1) in
        let ost := state in
        Ok (0, r, ost)
       else
        iso2022_jp2_wctomb_j2 state1 state2 state3 r
      else
       if (x1 =? 0x7a) then
        if (state3 =? 4) then
         let state3 := 7 in
         let state := (Z.lor (Z.lor (Z.shiftl state3 0x10) (Z.shiftl state2 8)) state1) in
         let ost := state in
         Ok (0, r, ost)
        else
         iso2022_jp2_wctomb_j2 state1 state2 state3 r
       else
        if (x1 =? 0x68) then
         if (state3 =? 7) then
          let state3 := 3 in
          let state := (Z.lor (Z.lor (Z.shiftl state3 0x10) (Z.shiftl state2 8)) state1) in
          let ost := state in
          Ok (0, r, ost)
         else
          iso2022_jp2_wctomb_j2 state1 state2 state3 r
        else
         if (x1 =? 0x7f) then
          let state3 := 0 in
          let state := (Z.lor (Z.lor (Z.shiftl state3 0x10) (Z.shiftl state2 8)) state1) in
          let ost := state in
          Ok (0, r, ost)
         else
          iso2022_jp2_wctomb_j2 state1 state2 state3 r.
(* lib/converters/iso2022_jp2.h:372-771 iso2022_jp2_wctomb *)
Definition iso2022_jp2_wctomb_j4 (count : Z) (state1 : Z) (state2 : Z) (state3 : Z) (wc : Z) (x3 : Z) (ro : nat) (r : wlog) : res (Z * wlog * Z) :=
  let r := wr r ro x3 in
  if ((wc =? 0xa) ||| (wc =? 0xd)) then
   let state2 := 0 in
   let state := (Z.lor (Z.lor (Z.shiftl state3 0x10) (Z.shiftl state2 8)) state1) in
   let ost := state in
   Ok (count, r, ost)
  else
   let state := (Z.lor (Z.lor (Z.shiftl state3 0x10) (Z.shiftl state2 8)) state1) in
   let ost := state in
   Ok (count, r, ost).
(* lib/converters/iso2022_jp2.h:372-771 iso2022_jp2_wctomb *)
Definition iso2022_jp2_wctomb_j7 (count : Z) (state1 : Z) (state2 : Z) (state3 : Z) (x8 : Z) (ro : nat) (r : wlog) : res (Z * wlog * Z) :=
  let r := wr r ro 0x1b in
  let r := wr r (Nat.add ro 1%nat) 0x4e in
  let r := wr r (Nat.add ro 2%nat) (x8 - 0x80) in
  let state := (Z.lor (Z.lor (Z.shiftl state3 0x10) (Z.shiftl state2 8)) state1) in
  let ost := state in
  Ok (count, r, ost).
(* lib/converters/iso2022_jp2.h:372-771 iso2022_jp2_wctomb *)
Definition iso2022_jp2_wctomb_j9 (count : Z) (state1 : Z) (state2 : Z) (state3 : Z) (x11 : Z) (ro : nat) (r : wlog) : res (Z * wlog * Z) :=
  let r := wr r ro 0x1b in
  let r := wr r (Nat.add ro 1%nat) 0x4e in
  let r := wr r (Nat.add ro 2%nat) (x11 - 0x80) in
  let state := (Z.lor (Z.lor (Z.shiftl state3 0x10) (Z.shiftl state2 8)) state1) in
  let ost := state in
  Ok (count, r, ost).
(* lib/converters/iso2022_jp2.h:372-771 iso2022_jp2_wctomb *)
Definition iso2022_jp2_wctomb_j10 (count : Z) (state1 : Z) (state2 : Z) (state3 : Z) (wc : Z) (x14 : Z) (ro : nat) (r : wlog) : res (Z * wlog * Z) :=
  let r := wr r ro x14 in
  if ((wc =? 0xa) ||| (wc =? 0xd)) then
   let state2 := 0 in
   let state := (Z.lor (Z.lor (Z.shiftl state3 0x10) (Z.shiftl state2 8)) state1) in
   let ost := state in
   Ok (count, r, ost)
  else
   let state := (Z.lor (Z.lor (Z.shiftl state3 0x10) (Z.shiftl state2 8)) state1) in
   let ost := state in
   Ok (count, r, ost).
(* lib/converters/iso2022_jp2.h:372-771 iso2022_jp2_wctomb *)
Definition iso2022_jp2_wctomb_j12 (count : Z) (state1 : Z) (state2 : Z) (state3 : Z) (x17 : Z) (x18 : Z) (ro : nat) (r : wlog) : res (Z * wlog * Z) :=
  let r := wr r ro x17 in
  let r := wr r (Nat.add ro 1%nat) x18 in
  let state := (Z.lor (Z.lor (Z.shiftl state3 0x10) (Z.shiftl state2 8)) state1) in
  let ost := state in
  Ok (count, r, ost).
(* lib/converters/iso2022_jp2.h:372-771 iso2022_jp2_wctomb *)
Definition iso2022_jp2_wctomb_j14 (count : Z) (state1 : Z) (state2 : Z) (state3 : Z) (x22 : Z) (x23 : Z) (ro : nat) (r : wlog) : res (Z * wlog * Z) :=
  let r := wr r ro x22 in
  let r := wr r (Nat.add ro 1%nat) x23 in
  let state := (Z.lor (Z.lor (Z.shiftl state3 0x10) (Z.shiftl state2 8)) state1) in
  let ost := state in
  Ok (count, r, ost).
(* lib/converters/iso2022_jp2.h:372-771 iso2022_jp2_wctomb *)
Definition iso2022_jp2_wctomb_j15 (count : Z) (state1 : Z) (state2 : Z) (state3 : Z) (x27 : Z) (x28 : Z) (ro : nat) (r : wlog) : res (Z * wlog * Z) :=
  let r := wr r ro x27 in
  let r := wr r (Nat.add ro 1%nat) x28 in
  let state := (Z.lor (Z.lor (Z.shiftl state3 0x10) (Z.shiftl state2 8)) state1) in
  let ost := state in
  Ok (count, r, ost).
(* lib/converters/iso2022_jp2.h:372-771 iso2022_jp2_wctomb *)
Definition iso2022_jp2_wctomb_j16 (count : Z) (state1 : Z) (state2 : Z) (state3 : Z) (x32 : Z) (x33 : Z) (ro : nat) (r : wlog) : res (Z * wlog * Z) :=
  let r := wr r ro x32 in
  let r := wr r (Nat.add ro 1%nat) x33 in
  let state := (Z.lor (Z.lor (Z.shiftl state3 0x10) (Z.shiftl state2 8)) state1) in
  let ost := state in
  Ok (count, r, ost).
(* lib/converters/iso2022_jp2.h:372-771 iso2022_jp2_wctomb *)
Fixpoint iso2022_jp2_wctomb_loop (fuel : nat) (buf : wlog) (conversion_list : Z) (state1 : Z) (state2 : Z) (state3 : Z) (wc : Z) (n : nat) (ro : nat) (r : wlog) (ost : Z) {struct fuel} : res (Z * wlog * Z) :=
  match fuel with O => NoFuel | S fuel =>
  let x6 := (Z.land conversion_list ((Z.shiftl 1 3) - 1)) in
  if (x6 =? 1) then
   bind (iso8859_1_wctomb wc 1%nat) (fun '(ret, l) =>
   lappb 2%nat buf 0%nat l (fun buf =>
   if (negb (ret =? (-1))) then
    if (negb (ret =? 1)) then
     Abort
    else
     lrd buf 0%nat (fun x8 =>
     if (x8 >=? 0x80) then
      let count := (if (state2 =? 1) then 3 else 6) in
      if (Nat.ltb n (Z.to_nat count)) then
       Ok ((-2), r, ost)
      else
       if (negb (state2 =? 1)) then
        let r := wr r ro 0x1b in
        let r := wr r (Nat.add ro 1%nat) 0x2e in
        let r := wr r (Nat.add ro 2%nat) 0x41 in
        let ro := (Nat.add ro 3%nat) in
        let state2 := 1 in
        iso2022_jp2_wctomb_j7 count state1 state2 state3 x8 ro r
       else
        iso2022_jp2_wctomb_j7 count state1 state2 state3 x8 ro r
     else
      iso2022_jp2_wctomb_j8 fuel buf conversion_list state1 state2 state3 wc n ro r ost)
   else
    iso2022_jp2_wctomb_j8 fuel buf conversion_list state1 state2 state3 wc n ro r ost))
  else
   if (x6 =? 2) then
    bind (jisx0201_wctomb wc 1%nat) (fun '(ret, l) =>
    lappb 2%nat buf 0%nat l (fun buf =>
    if (negb (ret =? (-1))) then
     if (negb (ret =? 1)) then
      Abort
     else
      lrd buf 0%nat (fun x14 =>
      if (x14 <? 0x80) then
       let count := (if (state1 =? 1) then 1 else 4) in
       if (Nat.ltb n (Z.to_nat count)) then
        Ok ((-2), r, ost)
       else
        if (negb (state1 =? 1)) then
         let r := wr r ro 0x1b in
         let r := wr r (Nat.add ro 1%nat) 0x28 in
         let r := wr r (Nat.add ro 2%nat) 0x4a in
         let ro := (Nat.add ro 3%nat) in
         let state1 := 1 in
         iso2022_jp2_wctomb_j10 count state1 state2 state3 wc x14 ro r
        else
         iso2022_jp2_wctomb_j10 count state1 state2 state3 wc x14 ro r
      else
       iso2022_jp2_wctomb_j11 fuel buf conversion_list state1 state2 state3 wc n ro r ost)
    else
     iso2022_jp2_wctomb_j11 fuel buf conversion_list state1 state2 state3 wc n ro r ost))
   else
    if (x6 =? 3) then
     bind (gb2312_wctomb wc 2%nat) (fun '(ret, l) =>
     lappb 2%nat buf 0%nat l (fun buf =>
     if (negb (ret =? (-1))) then
      if (negb (ret =? 2)) then
       Abort
      else
       lrd buf 0%nat (fun x27 =>
       if (x27 <? 0x80) then
        lrd buf 1%nat (fun x28 =>
        if (x28 <? 0x80) then
         let count := (if (state1 =? 5) then 2 else 5) in
         if (Nat.ltb n (Z.to_nat count)) then
          Ok ((-2), r, ost)
         else
          if (negb (state1 =? 5)) then
           let r := wr r ro 0x1b in
           let r := wr r (Nat.add ro 1%nat) 0x24 in
           let r := wr r (Nat.add ro 2%nat) 0x41 in
           let ro := (Nat.add ro 3%nat) in
           let state1 := 5 in
           iso2022_jp2_wctomb_j15 count state1 state2 state3 x27 x28 ro r
          else
           iso2022_jp2_wctomb_j15 count state1 state2 state3 x27 x28 ro r
        else
         iso2022_jp2_wctomb_j6 fuel buf conversion_list state1 state2 state3 wc n ro r ost)
       else
        iso2022_jp2_wctomb_j6 fuel buf conversion_list state1 state2 state3 wc n ro r ost)
     else
      iso2022_jp2_wctomb_j6 fuel buf conversion_list state1 state2 state3 wc n ro r ost))
    else
     if (x6 =? 4) then
      bind (ksc5601_wctomb wc 2%nat) (fun '(ret, l) =>
      lappb 2%nat buf 0%nat l (fun buf =>
      if (negb (ret =? (-1))) then
       if (negb (ret =? 2)) then
        Abort
       else
        lrd buf 0%nat (fun x32 =>
        if (x32 <? 0x80) then
         lrd buf 1%nat (fun x33 =>
         if (x33 <? 0x80) then
          let count := (if (state1 =? 6) then 2 else 6) in
          if (Nat.ltb n (Z.to_nat count)) then
           Ok ((-2), r, ost)
          else
           if (negb (state1 =? 6)) then
            let r := wr r ro 0x1b in
            let r := wr r (Nat.add ro 1%nat) 0x24 in
            let r := wr r (Nat.add ro 2%nat) 0x28 in
            let r := wr r (Nat.add ro 3%nat) 0x43 in
            let ro := (Nat.add ro 4%nat) in
            let state1 := 6 in
            iso2022_jp2_wctomb_j16 count state1 state2 state3 x32 x33 ro r
           else
            iso2022_jp2_wctomb_j16 count state1 state2 state3 x32 x33 ro r
         else
          iso2022_jp2_wctomb_j6 fuel buf conversion_list state1 state2 state3 wc n ro r ost)
        else
         iso2022_jp2_wctomb_j6 fuel buf conversion_list state1 state2 state3 wc n ro r ost)
      else
       iso2022_jp2_wctomb_j6 fuel buf conversion_list state1 state2 state3 wc n ro r ost))
     else
      if (x6 =? 5) then
       bind (jisx0201_wctomb wc 1%nat) (fun '(ret, l) =>
       lappb 2%nat buf 0%nat l (fun buf =>
       if (negb (ret =? (-1))) then
        if (negb (ret =? 1)) then
         Abort
        else
         lrd buf 0%nat (fun x37 =>
         if (x37 >=? 0x80) then
          let count := (if (state1 =? 2) then 1 else 4) in
          if (Nat.ltb n (Z.to_nat count)) then
           Ok ((-2), r, ost)
          else
           if (negb (state1 =? 2)) then
            let r := wr r ro 0x1b in
            let r := wr r (Nat.add ro 1%nat) 0x28 in
            let r := wr r (Nat.add ro 2%nat) 0x49 in
            let ro := (Nat.add ro 3%nat) in
            let state1 := 2 in
            let r := wr r ro (x37 - 0x80) in
            let state := (Z.lor (Z.lor (Z.shiftl state3 0x10) (Z.shiftl state2 8)) state1) in
            let ost := state in
            Ok (count, r, ost)
           else
            let r := wr r ro (x37 - 0x80) in
            let state := (Z.lor (Z.lor (Z.shiftl state3 0x10) (Z.shiftl state2 8)) state1) in
            let ost := state in
            Ok (count, r, ost)
         else
          iso2022_jp2_wctomb_j6 fuel buf conversion_list state1 state2 state3 wc n ro r ost)
       else
        iso2022_jp2_wctomb_j6 fuel buf conversion_list state1 state2 state3 wc n ro r ost))
      else
       Abort
  end
with iso2022_jp2_wctomb_j6 (fuel : nat) (buf : wlog) (conversion_list : Z) (state1 : Z) (state2 : Z) (state3 : Z) (wc : Z) (n : nat) (ro : nat) (r : wlog) (ost : Z) {struct fuel} : res (Z * wlog * Z) :=
  match fuel with O => NoFuel | S fuel =>
  let conversion_list := (Z.shiftr conversion_list 3) in
  if (negb (conversion_list =? 0)) then
   iso2022_jp2_wctomb_loop fuel buf conversion_list state1 state2 state3 wc n ro r ost
  else
   Ok ((-1), r, ost)
  end
with iso2022_jp2_wctomb_j8 (fuel : nat) (buf : wlog) (conversion_list : Z) (state1 : Z) (state2 : Z) (state3 : Z) (wc : Z) (n : nat) (ro : nat) (r : wlog) (ost : Z) {struct fuel} : res (Z * wlog * Z) :=
  match fuel with O => NoFuel | S fuel =>
  bind (iso8859_7_wctomb wc 1%nat) (fun '(ret, l) =>
  lappb 2%nat buf 0%nat l (fun buf =>
  if (negb (ret =? (-1))) then
   if (negb (ret =? 1)) then
    Abort
   else
    lrd buf 0%nat (fun x11 =>
    if (x11 >=? 0x80) then
     let count := (if (state2 =? 2) then 3 else 6) in
     if (Nat.ltb n (Z.to_nat count)) then
      Ok ((-2), r, ost)
     else
      if (negb (state2 =? 2)) then
       let r := wr r ro 0x1b in
       let r := wr r (Nat.add ro 1%nat) 0x2e in
       let r := wr r (Nat.add ro 2%nat) 0x46 in
       let ro := (Nat.add ro 3%nat) in
       let state2 := 2 in
       iso2022_jp2_wctomb_j9 count state1 state2 state3 x11 ro r
      else
       iso2022_jp2_wctomb_j9 count state1 state2 state3 x11 ro r
    else
     iso2022_jp2_wctomb_j6 fuel buf conversion_list state1 state2 state3 wc n ro r ost)
  else
   iso2022_jp2_wctomb_j6 fuel buf conversion_list state1 state2 state3 wc n ro r ost))
  end
with iso2022_jp2_wctomb_j11 (fuel : nat) (buf : wlog) (conversion_list : Z) (state1 : Z) (state2 : Z) (state3 : Z) (wc : Z) (n : nat) (ro : nat) (r : wlog) (ost : Z) {struct fuel} : res (Z * wlog * Z) :=
  match fuel with O => NoFuel | S fuel =>
  bind (jisx0208_wctomb wc 2%nat) (fun '(ret, l) =>
  lappb 2%nat buf 0%nat l (fun buf =>
  if (negb (ret =? (-1))) then
   if (negb (ret =? 2)) then
    Abort
   else
    lrd buf 0%nat (fun x17 =>
    if (x17 <? 0x80) then
     lrd buf 1%nat (fun x18 =>
     if (x18 <? 0x80) then
      let count := (if (state1 =? 3) then 2 else 5) in
      if (Nat.ltb n (Z.to_nat count)) then
       Ok ((-2), r, ost)
      else
       if (negb (state1 =? 3)) then
        let r := wr r ro 0x1b in
        let r := wr r (Nat.add ro 1%nat) 0x24 in
        let r := wr r (Nat.add ro 2%nat) 0x42 in
        let ro := (Nat.add ro 3%nat) in
        let state1 := 3 in
        iso2022_jp2_wctomb_j12 count state1 state2 state3 x17 x18 ro r
       else
        iso2022_jp2_wctomb_j12 count state1 state2 state3 x17 x18 ro r
     else
      iso2022_jp2_wctomb_j13 fuel buf conversion_list state1 state2 state3 wc n ro r ost)
    else
     iso2022_jp2_wctomb_j13 fuel buf conversion_list state1 state2 state3 wc n ro r ost)
  else
   iso2022_jp2_wctomb_j13 fuel buf conversion_list state1 state2 state3 wc n ro r ost))
  end
with iso2022_jp2_wctomb_j13 (fuel : nat) (buf : wlog) (conversion_list : Z) (state1 : Z) (state2 : Z) (state3 : Z) (wc : Z) (n : nat) (ro : nat) (r : wlog) (ost : Z) {struct fuel} : res (Z * wlog * Z) :=
  match fuel with O => NoFuel | S fuel =>
  bind (jisx0212_wctomb wc 2%nat) (fun '(ret, l) =>
  lappb 2%nat buf 0%nat l (fun buf =>
  if (negb (ret =? (-1))) then
   if (negb (ret =? 2)) then
    Abort
   else
    lrd buf 0%nat (fun x22 =>
    if (x22 <? 0x80) then
     lrd buf 1%nat (fun x23 =>
     if (x23 <? 0x80) then
      let count := (if (state1 =? 4) then 2 else 6) in
      if (Nat.ltb n (Z.to_nat count)) then
       Ok ((-2), r, ost)
      else
       if (negb (state1 =? 4)) then
        let r := wr r ro 0x1b in
        let r := wr r (Nat.add ro 1%nat) 0x24 in
        let r := wr r (Nat.add ro 2%nat) 0x28 in
        let r := wr r (Nat.add ro 3%nat) 0x44 in
        let ro := (Nat.add ro 4%nat) in
        let state1 := 4 in
        iso2022_jp2_wctomb_j14 count state1 state2 state3 x22 x23 ro r
       else
        iso2022_jp2_wctomb_j14 count state1 state2 state3 x22 x23 ro r
     else
      iso2022_jp2_wctomb_j6 fuel buf conversion_list state1 state2 state3 wc n ro r ost)
    else
     iso2022_jp2_wctomb_j6 fuel buf conversion_list state1 state2 state3 wc n ro r ost)
  else
   iso2022_jp2_wctomb_j6 fuel buf conversion_list state1 state2 state3 wc n ro r ost))
  end.
(* lib/converters/iso2022_jp2.h:372-771 iso2022_jp2_wctomb *)
Definition iso2022_jp2_wctomb_j5 (buf : wlog) (state1 : Z) (state2 : Z) (state3 : Z) (wc : Z) (n : nat) (ro : nat) (r : wlog) (ost : Z) : res (Z * wlog * Z) :=
  tget conversion_lists state3 (fun conversion_list =>
  iso2022_jp2_wctomb_loop 64%nat buf conversion_list state1 state2 state3 wc n ro r ost).
(* lib/converters/iso2022_jp2.h:372-771 iso2022_jp2_wctomb *)
Definition iso2022_jp2_wctomb_j3 (buf : wlog) (state1 : Z) (state2 : Z) (state3 : Z) (wc : Z) (n : nat) (ro : nat) (r : wlog) (ost : Z) : res (Z * wlog * Z) :=
  bind (ascii_wctomb wc 1%nat) (fun '(ret, l) =>
  lappb 2%nat buf 0%nat l (fun buf =>
  if (negb (ret =? (-1))) then
   if (negb (ret =? 1)) then
    Abort
   else
    lrd buf 0%nat (fun x3 =>
    if (x3 <? 0x80) then
     let count := (if (state1 =? 0) then 1 else 4) in
     if (Nat.ltb n (Z.to_nat count)) then
      Ok ((-2), r, ost)
     else
      if (negb (state1 =? 0)) then
       let r := wr r ro 0x1b in
       let r := wr r (Nat.add ro 1%nat) 0x28 in
       let r := wr r (Nat.add ro 2%nat) 0x42 in
       let ro := (Nat.add ro 3%nat) in
       let state1 := 0 in
       iso2022_jp2_wctomb_j4 count state1 state2 state3 wc x3 ro r
      else
       iso2022_jp2_wctomb_j4 count state1 state2 state3 wc x3 ro r
    else
     iso2022_jp2_wctomb_j5 buf state1 state2 state3 wc n ro r ost)
  else
   iso2022_jp2_wctomb_j5 buf state1 state2 state3 wc n ro r ost)).
(* lib/converters/iso2022_jp2.h:372-771 iso2022_jp2_wctomb *)
Definition iso2022_jp2_wctomb (wc : Z) (n : nat) (ost : Z) : res (Z * wlog * Z) :=
  let r := ([] : wlog) in
  let ro := 0%nat in
  let state := ost in
  let state1 := (Z.land state 0xff) in
  let state2 := (Z.land (Z.shiftr state 8) 0xff) in
  let state3 := (Z.shiftr state 0x10) in
  let buf := ([] : wlog) in
  if ((Z.shiftr wc 7) =? (Z.shiftr 0xe0000 7)) then
   let c := (Z.land wc 0x7f) in
   if ((c >=? 0x41) &&& (c <=? 0x5a)) then
    let c := (c + 0x20) in
    iso2022_jp2_wctomb_j c state1 state2 state3 r
   else
    iso2022_jp2_wctomb_j c state1 state2 state3 r
  else
   if (state3 >=? 4) then
    let state3 := 0 in
    iso2022_jp2_wctomb_j3 buf state1 state2 state3 wc n ro r ost
   else
    iso2022_jp2_wctomb_j3 buf state1 state2 state3 wc n ro r ost.

(* lib/converters/iso2022_jp2.h:773-791 iso2022_jp2_reset *)
Definition iso2022_jp2_reset (n : nat) (ost : Z) : res (Z * wlog * Z) :=
  let r := ([] : wlog) in
  let state := ost in
  let state1 := (Z.land state 0xff) in
  let state2 := (Z.land (Z.shiftr state 8) 0xff) in
  let state3 := (Z.shiftr state 0x10) in
  if (negb (state1 =? 0)) then
   if (Nat.ltb n 3%nat) then
    Ok ((-2), r, ost)
   else
    let r := wr r 0%nat 0x1b in
    let r := wr r 1%nat 0x28 in
    let r := wr r 2%nat 0x42 in
    Ok (3, r, ost)
  else
   Ok (0, r, ost).

(* lib/converters/iso2022_jpms.h:98-348 iso2022_jpms_mbtowc *)
Definition iso2022_jpms_mbtowc_j8 (count : Z) (ret : Z) (state : Z) (pwc : option Z) (ibo : Z) : res (Z * option Z * Z * Z) :=
  if (ret =? (-1)) then
   let ist := state in
   ck (2 * count) (fun k1 =>
   Ok (((-1) - k1), pwc, ist, ibo))
  else
   if (negb (ret =? 2)) then
    Abort
   else
    let ist := state in
    ck (count + 2) (fun k2 =>
    Ok (k2, pwc, ist, ibo)).
(* lib/converters/iso2022_jpms.h:98-348 iso2022_jpms_mbtowc *)
Definition iso2022_jpms_mbtowc_j4 (count : Z) (state : Z) (pwc : option Z) (ibo : Z) : res (Z * option Z * Z * Z) :=
  let ret := (-1) in
  iso2022_jpms_mbtowc_j8 count ret state pwc ibo.
(* lib/converters/iso2022_jpms.h:98-348 iso2022_jpms_mbtowc *)
Definition iso2022_jpms_mbtowc_j7 (count : Z) (state : Z) (wc : Z) (ibo : Z) : res (Z * option Z * Z * Z) :=
  let pwc := Some wc in
  let ret := 2 in
  iso2022_jpms_mbtowc_j8 count ret state pwc ibo.
(* lib/converters/iso2022_jpms.h:98-348 iso2022_jpms_mbtowc *)
Definition iso2022_jpms_mbtowc_j6 (count : Z) (state : Z) (wc : Z) (x15 : Z) (s : list Z) (ibo : Z) : res (Z * option Z * Z * Z) :=
  if (wc =? 0xfffd) then
   rd s 0%nat (fun x31 =>
   let wc := (u16 ((((x31 - 0x75) * 0x5e) + (x15 - 0x21)) + 0xe000)) in
   iso2022_jpms_mbtowc_j7 count state wc ibo)
  else
   iso2022_jpms_mbtowc_j7 count state wc ibo.
(* lib/converters/iso2022_jpms.h:98-348 iso2022_jpms_mbtowc *)
Definition iso2022_jpms_mbtowc_j5 (count : Z) (state : Z) (pwc : option Z) (ibo : Z) : res (Z * option Z * Z * Z) :=
  let ret := (-1) in
  iso2022_jpms_mbtowc_j8 count ret state pwc ibo.
(* lib/converters/iso2022_jpms.h:98-348 iso2022_jpms_mbtowc *)
Definition iso2022_jpms_mbtowc_j11 (count : Z) (ret : Z) (state : Z) (pwc : option Z) (ibo : Z) : res (Z * option Z * Z * Z) :=
  if (ret =? (-1)) then
   let ist := state in
   ck (2 * count) (fun k3 =>
   Ok (((-1) - k3), pwc, ist, ibo))
  else
   if (negb (ret =? 2)) then
    Abort
   else
    let ist := state in
    ck (count + 2) (fun k4 =>
    Ok (k4, pwc, ist, ibo)).
(* lib/converters/iso2022_jpms.h:98-348 iso2022_jpms_mbtowc *)
Definition iso2022_jpms_mbtowc_j9 (count : Z) (state : Z) (pwc : option Z) (ibo : Z) : res (Z * option Z * Z * Z) :=
  let ret := (-1) in
  iso2022_jpms_mbtowc_j11 count ret state pwc ibo.
(* lib/converters/iso2022_jpms.h:98-348 iso2022_jpms_mbtowc *)
Definition iso2022_jpms_mbtowc_j10 (count : Z) (state : Z) (pwc : option Z) (ibo : Z) : res (Z * option Z * Z * Z) :=
  let ret := (-1) in
  iso2022_jpms_mbtowc_j11 count ret state pwc ibo.
(* lib/converters/iso2022_jpms.h:98-348 iso2022_jpms_mbtowc *)
Fixpoint iso2022_jpms_mbtowc_loop (fuel : nat) (count : Z) (state : Z) (s : list Z) (n : nat) (pwc : option Z) (ibo : Z) {struct fuel} : res (Z * option Z * Z * Z) :=
  match fuel with O => NoFuel | S fuel =>
  rd s 0%nat (fun c =>
  if (c =? 0x1b) then
   ck (count + 3) (fun k5 =>
   if (Nat.ltb n (Z.to_nat k5)) then
    let ist := state in
    ck (2 * count) (fun k6 =>
    ck ((-2) - k6) (fun k7 =>
    Ok (k7, pwc, ist, ibo)))
   else
    rd s 1%nat (fun x2 =>
    if (x2 =? 0x28) then
     rd s 2%nat (fun x3 =>
     if (x3 =? 0x42) then
      let state := 0 in
      let s := skipn 3%nat s in
      ck (count + 3) (fun k8 =>
      let count := k8 in
      ck (count + 1) (fun k9 =>
      if (Nat.ltb n (Z.to_nat k9)) then
       let ist := state in
       ck (2 * count) (fun k10 =>
       ck ((-2) - k10) (fun k11 =>
       Ok (k11, pwc, ist, ibo)))
      else
       iso2022_jpms_mbtowc_loop fuel count state s n pwc ibo))
     else
      if (x3 =? 0x49) then
       let state := 2 in
       let s := skipn 3%nat s in
       ck (count + 3) (fun k12 =>
       let count := k12 in
       ck (count + 1) (fun k13 =>
       if (Nat.ltb n (Z.to_nat k13)) then
        let ist := state in
        ck (2 * count) (fun k14 =>
        ck ((-2) - k14) (fun k15 =>
        Ok (k15, pwc, ist, ibo)))
       else
        iso2022_jpms_mbtowc_loop fuel count state s n pwc ibo))
      else
       if (x3 =? 0x4a) then
        let state := 1 in
        let s := skipn 3%nat s in
        ck (count + 3) (fun k16 =>
        let count := k16 in
        ck (count + 1) (fun k17 =>
        if (Nat.ltb n (Z.to_nat k17)) then
         let ist := state in
         ck (2 * count) (fun k18 =>
         ck ((-2) - k18) (fun k19 =>
         Ok (k19, pwc, ist, ibo)))
        else
         iso2022_jpms_mbtowc_loop fuel count state s n pwc ibo))
       else
        let ist := state in
        ck (2 * count) (fun k20 =>
        Ok (((-1) - k20), pwc, ist, ibo)))
    else
     if (x2 =? 0x24) then
      rd s 2%nat (fun x7 =>
      if (x7 =? 0x40) then
       iso2022_jpms_mbtowc_j fuel count s n pwc ibo
      else
       if (x7 =? 0x42) then
        iso2022_jpms_mbtowc_j fuel count s n pwc ibo
       else
        if (x7 =? 0x28) then
         ck (count + 4) (fun k21 =>
         if (Nat.ltb n (Z.to_nat k21)) then
          let ist := state in
          ck (2 * count) (fun k22 =>
          ck ((-2) - k22) (fun k23 =>
          Ok (k23, pwc, ist, ibo)))
         else
          rd s 3%nat (fun x10 =>
          if (x10 =? 0x44) then
           let state := 4 in
           let s := skipn 4%nat s in
           ck (count + 4) (fun k24 =>
           let count := k24 in
           ck (count + 1) (fun k25 =>
           if (Nat.ltb n (Z.to_nat k25)) then
            let ist := state in
            ck (2 * count) (fun k26 =>
            ck ((-2) - k26) (fun k27 =>
            Ok (k27, pwc, ist, ibo)))
           else
            iso2022_jpms_mbtowc_loop fuel count state s n pwc ibo))
          else
           let ist := state in
           ck (2 * count) (fun k28 =>
           Ok (((-1) - k28), pwc, ist, ibo))))
        else
         let ist := state in
         ck (2 * count) (fun k29 =>
         Ok (((-1) - k29), pwc, ist, ibo)))
     else
      let ist := state in
      ck (2 * count) (fun k30 =>
      Ok (((-1) - k30), pwc, ist, ibo))))
  else
   if (c =? 0xe) then
    if (state =? 1) then
     let state := 2 in
     iso2022_jpms_mbtowc_j2 fuel count state s n pwc ibo
    else
     iso2022_jpms_mbtowc_j2 fuel count state s n pwc ibo
   else
    if (c =? 0xf) then
     if (state =? 2) then
      let state := 1 in
      iso2022_jpms_mbtowc_j3 fuel count state s n pwc ibo
     else
      iso2022_jpms_mbtowc_j3 fuel count state s n pwc ibo
    else
     if (state =? 0) then
      if (c <? 0x80) then
       bind (ascii_mbtowc s 1%nat) (fun '(ret, o) =>
       let pwc := oset pwc o in
       if (ret =? (-1)) then
        let ist := state in
        ck (2 * count) (fun k31 =>
        Ok (((-1) - k31), pwc, ist, ibo))
       else
        if (negb (ret =? 1)) then
         Abort
        else
         let ist := state in
         ck (count + 1) (fun k32 =>
         Ok (k32, pwc, ist, ibo)))
      else
       let ist := state in
       ck (2 * count) (fun k33 =>
       Ok (((-1) - k33), pwc, ist, ibo))
     else
      if (state =? 1) then
       if (c <? 0x80) then
        bind (jisx0201_mbtowc s 1%nat) (fun '(ret, o) =>
        let pwc := oset pwc o in
        if (ret =? (-1)) then
         let ist := state in
         ck (2 * count) (fun k34 =>
         Ok (((-1) - k34), pwc, ist, ibo))
        else
         if (negb (ret =? 1)) then
          Abort
         else
          let ist := state in
          ck (count + 1) (fun k35 =>
          Ok (k35, pwc, ist, ibo)))
       else
        let ist := state in
        ck (2 * count) (fun k36 =>
        Ok (((-1) - k36), pwc, ist, ibo))
      else
       if (state =? 2) then
        if (c <? 0x80) then
         let buf := (c + 0x80) in
         bind (jisx0201_mbtowc [buf] 1%nat) (fun '(ret, o) =>
         let pwc := oset pwc o in
         if (ret =? (-1)) then
          let ist := state in
          ck (2 * count) (fun k37 =>
          Ok (((-1) - k37), pwc, ist, ibo))
         else
          if (negb (ret =? 1)) then
           Abort
          else
           let ist := state in
           ck (count + 1) (fun k38 =>
           Ok (k38, pwc, ist, ibo)))
        else
         let ist := state in
         ck (2 * count) (fun k39 =>
         Ok (((-1) - k39), pwc, ist, ibo))
       else
        if (state =? 3) then
         ck (count + 2) (fun k40 =>
         if (Nat.ltb n (Z.to_nat k40)) then
          let ist := state in
          ck (2 * count) (fun k41 =>
          ck ((-2) - k41) (fun k42 =>
          Ok (k42, pwc, ist, ibo)))
         else
          rd s 0%nat (fun x14 =>
          if (x14 <? 0x80) then
           rd s 1%nat (fun x15 =>
           if (x15 <? 0x80) then
            rd s 0%nat (fun x16 =>
            if (x16 <? 0x75) then
             rd s 0%nat (fun x17 =>
             if (x17 =? 0x2d) then
              if (x15 >=? 0x21) then
               if (x15 <=? 0x79) then
                let i := ((x15 - 0x21) + 1) in
                bind (cp50221_0208_ext_mbtowc [i] 1%nat) (fun '(ret, o) =>
                let pwc := oset pwc o in
                if (ret =? 1) then
                 let ret := 2 in
                 iso2022_jpms_mbtowc_j8 count ret state pwc ibo
                else
                 iso2022_jpms_mbtowc_j8 count ret state pwc ibo)
               else
                iso2022_jpms_mbtowc_j4 count state pwc ibo
              else
               iso2022_jpms_mbtowc_j4 count state pwc ibo
             else
              bind (jisx0208_mbtowc s 2%nat) (fun '(ret, o) =>
              let pwc := oset pwc o in
              iso2022_jpms_mbtowc_j8 count ret state pwc ibo))
            else
             rd s 0%nat (fun x23 =>
             if (x23 <=? 0x7e) then
              if (x15 >=? 0x21) then
               if (x15 <=? 0x7e) then
                let wc := 0xfffd in
                rd s 0%nat (fun x26 =>
                if (x26 >=? 0x79) then
                 rd s 0%nat (fun x27 =>
                 if (x27 <=? 0x7c) then
                  rd s 0%nat (fun x28 =>
                  tget cp932ext_2uni_pageed (((x28 - 0x79) * 0x5e) + (x15 - 0x21)) (fun wc =>
                  iso2022_jpms_mbtowc_j6 count state wc x15 s ibo))
                 else
                  iso2022_jpms_mbtowc_j6 count state wc x15 s ibo)
                else
                 iso2022_jpms_mbtowc_j6 count state wc x15 s ibo)
               else
                iso2022_jpms_mbtowc_j5 count state pwc ibo
              else
               iso2022_jpms_mbtowc_j5 count state pwc ibo
             else
              iso2022_jpms_mbtowc_j5 count state pwc ibo))
           else
            let ist := state in
            ck (2 * count) (fun k43 =>
            Ok (((-1) - k43), pwc, ist, ibo)))
          else
           let ist := state in
           ck (2 * count) (fun k44 =>
           Ok (((-1) - k44), pwc, ist, ibo))))
        else
         if (state =? 4) then
          ck (count + 2) (fun k45 =>
          if (Nat.ltb n (Z.to_nat k45)) then
           let ist := state in
           ck (2 * count) (fun k46 =>
           ck ((-2) - k46) (fun k47 =>
           Ok (k47, pwc, ist, ibo)))
          else
           rd s 0%nat (fun x33 =>
           if (x33 <? 0x80) then
            rd s 1%nat (fun x34 =>
            if (x34 <? 0x80) then
             rd s 0%nat (fun x35 =>
             if (x35 <? 0x73) then
              bind (jisx0212_mbtowc s 2%nat) (fun '(ret, o) =>
              let pwc := oset pwc o in
              iso2022_jpms_mbtowc_j11 count ret state pwc ibo)
             else
              rd s 0%nat (fun x37 =>
              if (x37 <? 0x75) then
               if (x34 >=? 0x21) then
                if (x34 <=? 0x7e) then
                 rd s 0%nat (fun x40 =>
                 let i := (u8 ((((x40 - 0x73) * 0x5e) + (x34 - 0x21)) + 1)) in
                 bind (cp50221_0212_ext_mbtowc [i] 1%nat) (fun '(ret, o) =>
                 let pwc := oset pwc o in
                 if (ret =? 1) then
                  let ret := 2 in
                  iso2022_jpms_mbtowc_j11 count ret state pwc ibo
                 else
                  iso2022_jpms_mbtowc_j11 count ret state pwc ibo))
                else
                 iso2022_jpms_mbtowc_j9 count state pwc ibo
               else
                iso2022_jpms_mbtowc_j9 count state pwc ibo
              else
               rd s 0%nat (fun x43 =>
               if (x43 <=? 0x7e) then
                if (x34 >=? 0x21) then
                 if (x34 <=? 0x7e) then
                  rd s 0%nat (fun x46 =>
                  let pwc := Some ((((x46 - 0x75) * 0x5e) + (x34 - 0x21)) + 0xe3ac) in
                  let ret := 2 in
                  iso2022_jpms_mbtowc_j11 count ret state pwc ibo)
                 else
                  iso2022_jpms_mbtowc_j10 count state pwc ibo
                else
                 iso2022_jpms_mbtowc_j10 count state pwc ibo
               else
                iso2022_jpms_mbtowc_j10 count state pwc ibo)))
            else
             let ist := state in
             ck (2 * count) (fun k48 =>
             Ok (((-1) - k48), pwc, ist, ibo)))
           else
            let ist := state in
            ck (2 * count) (fun k49 =>
            Ok (((-1) - k49), pwc, ist, ibo))))
         else
          Abort)
  end
with iso2022_jpms_mbtowc_j (fuel : nat) (count : Z) (s : list Z) (n : nat) (pwc : option Z) (ibo : Z) {struct fuel} : res (Z * option Z * Z * Z) :=
  match fuel with O => NoFuel | S fuel =>
  let state := 3 in
  let s := skipn 3%nat s in
  ck (count + 3) (fun k50 =>
  let count := k50 in
  ck (count + 1) (fun k51 =>
  if (Nat.ltb n (Z.to_nat k51)) then
   let ist := state in
   ck (2 * count) (fun k52 =>
   ck ((-2) - k52) (fun k53 =>
   Ok (k53, pwc, ist, ibo)))
  else
   iso2022_jpms_mbtowc_loop fuel count state s n pwc ibo))
  end
with iso2022_jpms_mbtowc_j2 (fuel : nat) (count : Z) (state : Z) (s : list Z) (n : nat) (pwc : option Z) (ibo : Z) {struct fuel} : res (Z * option Z * Z * Z) :=
  match fuel with O => NoFuel | S fuel =>
  let s := skipn 1%nat s in
  ck (count + 1) (fun k54 =>
  let count := k54 in
  ck (count + 1) (fun k55 =>
  if (Nat.ltb n (Z.to_nat k55)) then
   let ist := state in
   ck (2 * count) (fun k56 =>
   ck ((-2) - k56) (fun k57 =>
   Ok (k57, pwc, ist, ibo)))
  else
   iso2022_jpms_mbtowc_loop fuel count state s n pwc ibo))
  end
with iso2022_jpms_mbtowc_j3 (fuel : nat) (count : Z) (state : Z) (s : list Z) (n : nat) (pwc : option Z) (ibo : Z) {struct fuel} : res (Z * option Z * Z * Z) :=
  match fuel with O => NoFuel | S fuel =>
  let s := skipn 1%nat s in
  ck (count + 1) (fun k58 =>
  let count := k58 in
  ck (count + 1) (fun k59 =>
  if (Nat.ltb n (Z.to_nat k59)) then
   let ist := state in
   ck (2 * count) (fun k60 =>
   ck ((-2) - k60) (fun k61 =>
   Ok (k61, pwc, ist, ibo)))
  else
   iso2022_jpms_mbtowc_loop fuel count state s n pwc ibo))
  end.
(* lib/converters/iso2022_jpms.h:98-348 iso2022_jpms_mbtowc *)
Definition iso2022_jpms_mbtowc (s : list Z) (n : nat) (ist : Z) (ibo : Z) : res (Z * option Z * Z * Z) :=
  let pwc := (None : option Z) in
  let state := ist in
  let count := 0 in
  iso2022_jpms_mbtowc_loop (8 + 4 * n)%nat count state s n pwc ibo.

(* lib/converters/iso2022_jpms.h:350-524 iso2022_jpms_wctomb *)
Definition iso2022_jpms_wctomb_j5 (buf : wlog) (ret : Z) (state : Z) (n : nat) (ro : nat) (r : wlog) (ost : Z) : res (Z * wlog * Z) :=
  if (negb (ret =? (-1))) then
   if (negb (ret =? 2)) then
    Abort
   else
    lrd buf 0%nat (fun x19 =>
    if (x19 <? 0x80) then
     lrd buf 1%nat (fun x20 =>
     if (x20 <? 0x80) then
      let count := (if (state =? 4) then 2 else 6) in
      if (Nat.ltb n (Z.to_nat count)) then
       Ok ((-2), r, ost)
      else
       if (negb (state =? 4)) then
        let r := wr r ro 0x1b in
        let r := wr r (Nat.add ro 1%nat) 0x24 in
        let r := wr r (Nat.add ro 2%nat) 0x28 in
        let r := wr r (Nat.add ro 3%nat) 0x44 in
        let ro := (Nat.add ro 4%nat) in
        let state := 4 in
        let r := wr r ro x19 in
        let r := wr r (Nat.add ro 1%nat) x20 in
        let ost := state in
        Ok (count, r, ost)
       else
        let r := wr r ro x19 in
        let r := wr r (Nat.add ro 1%nat) x20 in
        let ost := state in
        Ok (count, r, ost)
     else
      Ok ((-1), r, ost))
    else
     Ok ((-1), r, ost))
  else
   Ok ((-1), r, ost).
(* lib/converters/iso2022_jpms.h:350-524 iso2022_jpms_wctomb *)
Definition iso2022_jpms_wctomb_j4 (buf : wlog) (state : Z) (wc : Z) (n : nat) (ro : nat) (r : wlog) (ost : Z) : res (Z * wlog * Z) :=
  if ((wc >=? 0xe3ac) &&& (wc <? 0xe758)) then
   let i := (wc - 0xe3ac) in
   wrb 2%nat buf 0%nat ((i / 0x5e) + 0x75) (fun buf =>
   wrb 2%nat buf 1%nat ((i mod 0x5e) + 0x21) (fun buf =>
   let ret := 2 in
   iso2022_jpms_wctomb_j5 buf ret state n ro r ost))
  else
   bind (jisx0212_wctomb wc 2%nat) (fun '(ret, l) =>
   lappb 2%nat buf 0%nat l (fun buf =>
   if (ret =? (-1)) then
    let i_2 := ([] : wlog) in
    bind (cp50221_0212_ext_wctomb wc 1%nat) (fun '(ret, l) =>
    lappb 1%nat i_2 0%nat l (fun i_2 =>
    if (ret =? 1) then
     lrd i_2 0%nat (fun x16 =>
     wrb 1%nat i_2 0%nat (u8 (x16 - 1)) (fun i_2 =>
     lrd i_2 0%nat (fun x17 =>
     wrb 2%nat buf 0%nat ((x17 / 0x5e) + 0x73) (fun buf =>
     wrb 2%nat buf 1%nat ((x17 mod 0x5e) + 0x21) (fun buf =>
     let ret := 2 in
     iso2022_jpms_wctomb_j5 buf ret state n ro r ost)))))
    else
     iso2022_jpms_wctomb_j5 buf ret state n ro r ost))
   else
    iso2022_jpms_wctomb_j5 buf ret state n ro r ost)).
(* lib/converters/iso2022_jpms.h:350-524 iso2022_jpms_wctomb *)
Definition iso2022_jpms_wctomb_j3 (buf : wlog) (ret : Z) (state : Z) (wc : Z) (n : nat) (ro : nat) (r : wlog) (ost : Z) : res (Z * wlog * Z) :=
  if (negb (ret =? (-1))) then
   if (negb (ret =? 2)) then
    Abort
   else
    lrd buf 0%nat (fun x10 =>
    if (x10 <? 0x80) then
     lrd buf 1%nat (fun x11 =>
     if (x11 <? 0x80) then
      let count := (if (state =? 3) then 2 else 5) in
      if (Nat.ltb n (Z.to_nat count)) then
       Ok ((-2), r, ost)
      else
       if (negb (state =? 3)) then
        let r := wr r ro 0x1b in
        let r := wr r (Nat.add ro 1%nat) 0x24 in
        let r := wr r (Nat.add ro 2%nat) 0x42 in
        let ro := (Nat.add ro 3%nat) in
        let state := 3 in
        let r := wr r ro x10 in
        let r := wr r (Nat.add ro 1%nat) x11 in
        let ost := state in
        Ok (count, r, ost)
       else
        let r := wr r ro x10 in
        let r := wr r (Nat.add ro 1%nat) x11 in
        let ost := state in
        Ok (count, r, ost)
     else
      iso2022_jpms_wctomb_j4 buf state wc n ro r ost)
    else
     iso2022_jpms_wctomb_j4 buf state wc n ro r ost)
  else
   iso2022_jpms_wctomb_j4 buf state wc n ro r ost.
(* lib/converters/iso2022_jpms.h:350-524 iso2022_jpms_wctomb *)
Definition iso2022_jpms_wctomb_j2 (buf : wlog) (state : Z) (wc : Z) (n : nat) (ro : nat) (r : wlog) (ost : Z) : res (Z * wlog * Z) :=
  if ((wc >=? 0xe000) &&& (wc <? 0xe3ac)) then
   let i := (wc - 0xe000) in
   wrb 2%nat buf 0%nat ((i / 0x5e) + 0x75) (fun buf =>
   wrb 2%nat buf 1%nat ((i mod 0x5e) + 0x21) (fun buf =>
   let ret := 2 in
   iso2022_jpms_wctomb_j3 buf ret state wc n ro r ost))
  else
   bind (jisx0208_wctomb wc 2%nat) (fun '(ret, l) =>
   lappb 2%nat buf 0%nat l (fun buf =>
   if (ret =? (-1)) then
    let i_2 := ([] : wlog) in
    bind (cp50221_0208_ext_wctomb wc 1%nat) (fun '(ret, l) =>
    lappb 1%nat i_2 0%nat l (fun i_2 =>
    if (ret =? 1) then
     wrb 2%nat buf 0%nat 0x2d (fun buf =>
     lrd i_2 0%nat (fun x9 =>
     wrb 2%nat buf 1%nat (u8 ((x9 - 1) + 0x21)) (fun buf =>
     let ret := 2 in
     iso2022_jpms_wctomb_j3 buf ret state wc n ro r ost)))
    else
     if (wc =? 0x663b) then
      wrb 2%nat buf 0%nat 0x7a (fun buf =>
      wrb 2%nat buf 1%nat 0x36 (fun buf =>
      let ret := 2 in
      iso2022_jpms_wctomb_j3 buf ret state wc n ro r ost))
     else
      if (wc =? 0xffe2) then
       wrb 2%nat buf 0%nat 0x7c (fun buf =>
       wrb 2%nat buf 1%nat 0x7b (fun buf =>
       let ret := 2 in
       iso2022_jpms_wctomb_j3 buf ret state wc n ro r ost))
      else
       if (wc =? 0xffe4) then
        wrb 2%nat buf 0%nat 0x7c (fun buf =>
        wrb 2%nat buf 1%nat 0x7c (fun buf =>
        let ret := 2 in
        iso2022_jpms_wctomb_j3 buf ret state wc n ro r ost))
       else
        iso2022_jpms_wctomb_j3 buf ret state wc n ro r ost))
   else
    iso2022_jpms_wctomb_j3 buf ret state wc n ro r ost)).
(* lib/converters/iso2022_jpms.h:350-524 iso2022_jpms_wctomb *)
Definition iso2022_jpms_wctomb_j (buf : wlog) (state : Z) (wc : Z) (n : nat) (ro : nat) (r : wlog) (ost : Z) : res (Z * wlog * Z) :=
  bind (jisx0201_wctomb wc 1%nat) (fun '(ret, l) =>
  lappb 2%nat buf 0%nat l (fun buf =>
  if (negb (ret =? (-1))) then
   if (negb (ret =? 1)) then
    Abort
   else
    lrd buf 0%nat (fun x5 =>
    if (x5 >=? 0x80) then
     let count := (if (state =? 2) then 1 else 4) in
     if (Nat.ltb n (Z.to_nat count)) then
      Ok ((-2), r, ost)
     else
      if (negb (state =? 2)) then
       let r := wr r ro 0x1b in
       let r := wr r (Nat.add ro 1%nat) 0x28 in
       let r := wr r (Nat.add ro 2%nat) 0x49 in
       let ro := (Nat.add ro 3%nat) in
       let state := 2 in
       let r := wr r ro (x5 - 0x80) in
       let ost := state in
       Ok (count, r, ost)
      else
       let r := wr r ro (x5 - 0x80) in
       let ost := state in
       Ok (count, r, ost)
    else
     iso2022_jpms_wctomb_j2 buf state wc n ro r ost)
  else
   iso2022_jpms_wctomb_j2 buf state wc n ro r ost)).
(* lib/converters/iso2022_jpms.h:350-524 iso2022_jpms_wctomb *)
Definition iso2022_jpms_wctomb (wc : Z) (n : nat) (ost : Z) : res (Z * wlog * Z) :=
  let r := ([] : wlog) in
  let ro := 0%nat in
  let state := ost in
  let buf := ([] : wlog) in
  bind (ascii_wctomb wc 1%nat) (fun '(ret, l) =>
  lappb 2%nat buf 0%nat l (fun buf =>
  if (negb (ret =? (-1))) then
   if (negb (ret =? 1)) then
    Abort
   else
    lrd buf 0%nat (fun x2 =>
    if (x2 <? 0x80) then
     let count := (if (state =? 0) then 1 else 4) in
     if (Nat.ltb n (Z.to_nat count)) then
      Ok ((-2), r, ost)
     else
      if (negb (state =? 0)) then
       let r := wr r ro 0x1b in
       let r := wr r (Nat.add ro 1%nat) 0x28 in
       let r := wr r (Nat.add ro 2%nat) 0x42 in
       let ro := (Nat.add ro 3%nat) in
       let state := 0 in
       let r := wr r ro x2 in
       let ost := state in
       Ok (count, r, ost)
      else
       let r := wr r ro x2 in
       let ost := state in
       Ok (count, r, ost)
    else
     iso2022_jpms_wctomb_j buf state wc n ro r ost)
  else
   iso2022_jpms_wctomb_j buf state wc n ro r ost)).

(* lib/converters/iso2022_jpms.h:526-541 iso2022_jpms_reset *)
Definition iso2022_jpms_reset (n : nat) (ost : Z) : res (Z * wlog * Z) :=
  let r := ([] : wlog) in
  let state := ost in
  if (negb (state =? 0)) then
   if (Nat.ltb n 3%nat) then
    Ok ((-2), r, ost)
   else
    let r := wr r 0%nat 0x1b in
    let r := wr r 1%nat 0x28 in
    let r := wr r 2%nat 0x42 in
    Ok (3, r, ost)
  else
   Ok (0, r, ost).

(* lib/converters/hz.h:39-121 hz_mbtowc *)
Fixpoint hz_mbtowc_loop (fuel : nat) (count : Z) (state : Z) (s : list Z) (n : nat) (pwc : option Z) (ibo : Z) {struct fuel} : res (Z * option Z * Z * Z) :=
  match fuel with O => NoFuel | S fuel =>
  rd s 0%nat (fun c =>
  if (c =? 0x7e) then
   if (Nat.ltb n (Z.to_nat (u32 (count + 2)))) then
    let ist := state in
    Ok ((s32 (u32 (0xfffffffe - (u32 (2 * count))))), pwc, ist, ibo)
   else
    rd s 1%nat (fun c =>
    if (state =? 0) then
     if (c =? 0x7e) then
      let pwc := Some 0x7e in
      let ist := state in
      Ok ((s32 (u32 (count + 2))), pwc, ist, ibo)
     else
      if (c =? 0x7b) then
       let state := 1 in
       let s := skipn 2%nat s in
       let count := (u32 (count + 2)) in
       if (Nat.ltb n (Z.to_nat (u32 (count + 1)))) then
        let ist := state in
        Ok ((s32 (u32 (0xfffffffe - (u32 (2 * count))))), pwc, ist, ibo)
       else
        hz_mbtowc_loop fuel count state s n pwc ibo
      else
       if (c =? 0xa) then
        let s := skipn 2%nat s in
        let count := (u32 (count + 2)) in
        if (Nat.ltb n (Z.to_nat (u32 (count + 1)))) then
         let ist := state in
         Ok ((s32 (u32 (0xfffffffe - (u32 (2 * count))))), pwc, ist, ibo)
        else
         hz_mbtowc_loop fuel count state s n pwc ibo
       else
        let ist := state in
        Ok ((s32 (0xffffffff - (u32 (2 * count)))), pwc, ist, ibo)
    else
     if (c =? 0x7d) then
      let state := 0 in
      let s := skipn 2%nat s in
      let count := (u32 (count + 2)) in
      if (Nat.ltb n (Z.to_nat (u32 (count + 1)))) then
       let ist := state in
       Ok ((s32 (u32 (0xfffffffe - (u32 (2 * count))))), pwc, ist, ibo)
      else
       hz_mbtowc_loop fuel count state s n pwc ibo
     else
      let ist := state in
      Ok ((s32 (0xffffffff - (u32 (2 * count)))), pwc, ist, ibo))
  else
   if (state =? 0) then
    let pwc := Some c in
    let ist := state in
    Ok ((s32 (u32 (count + 1))), pwc, ist, ibo)
   else
    if (Nat.ltb n (Z.to_nat (u32 (count + 2)))) then
     let ist := state in
     Ok ((s32 (u32 (0xfffffffe - (u32 (2 * count))))), pwc, ist, ibo)
    else
     bind (gb2312_mbtowc s 2%nat) (fun '(ret, o) =>
     let pwc := oset pwc o in
     if (ret =? (-1)) then
      let ist := state in
      Ok ((s32 (0xffffffff - (u32 (2 * count)))), pwc, ist, ibo)
     else
      if (negb (ret =? 2)) then
       Abort
      else
       let ist := state in
       Ok ((s32 (u32 (count + 2))), pwc, ist, ibo)))
  end.
(* lib/converters/hz.h:39-121 hz_mbtowc *)
Definition hz_mbtowc (s : list Z) (n : nat) (ist : Z) (ibo : Z) : res (Z * option Z * Z * Z) :=
  let pwc := (None : option Z) in
  let state := ist in
  let count := 0 in
  hz_mbtowc_loop (8 + 4 * n)%nat count state s n pwc ibo.

(* lib/converters/hz.h:123-179 hz_wctomb *)
Definition hz_wctomb_j (buf : wlog) (state : Z) (wc : Z) (n : nat) (ro : nat) (r : wlog) (ost : Z) : res (Z * wlog * Z) :=
  bind (gb2312_wctomb wc 2%nat) (fun '(ret, l) =>
  lappb 2%nat buf 0%nat l (fun buf =>
  if (negb (ret =? (-1))) then
   if (negb (ret =? 2)) then
    Abort
   else
    lrd buf 0%nat (fun x5 =>
    if (x5 <? 0x80) then
     lrd buf 1%nat (fun x6 =>
     if (x6 <? 0x80) then
      let count := (if (negb (state =? 0)) then 2 else 4) in
      if (Nat.ltb n (Z.to_nat count)) then
       Ok ((-2), r, ost)
      else
       if (negb (negb (state =? 0))) then
        let r := wr r ro 0x7e in
        let r := wr r (Nat.add ro 1%nat) 0x7b in
        let ro := (Nat.add ro 2%nat) in
        let state := 1 in
        let r := wr r ro x5 in
        let r := wr r (Nat.add ro 1%nat) x6 in
        let ost := state in
        Ok (count, r, ost)
       else
        let r := wr r ro x5 in
        let r := wr r (Nat.add ro 1%nat) x6 in
        let ost := state in
        Ok (count, r, ost)
     else
      Ok ((-1), r, ost))
    else
     Ok ((-1), r, ost))
  else
   Ok ((-1), r, ost))).
(* lib/converters/hz.h:123-179 hz_wctomb *)
Definition hz_wctomb (wc : Z) (n : nat) (ost : Z) : res (Z * wlog * Z) :=
  let r := ([] : wlog) in
  let ro := 0%nat in
  let state := ost in
  let buf := ([] : wlog) in
  bind (ascii_wctomb wc 1%nat) (fun '(ret, l) =>
  lappb 2%nat buf 0%nat l (fun buf =>
  if (negb (ret =? (-1))) then
   if (negb (ret =? 1)) then
    Abort
   else
    lrd buf 0%nat (fun x2 =>
    if (x2 <? 0x80) then
     let count := (if (negb (state =? 0)) then 3 else 1) in
     if (Nat.ltb n (Z.to_nat count)) then
      Ok ((-2), r, ost)
     else
      if (negb (state =? 0)) then
       let r := wr r ro 0x7e in
       let r := wr r (Nat.add ro 1%nat) 0x7d in
       let ro := (Nat.add ro 2%nat) in
       let state := 0 in
       let r := wr r ro x2 in
       let ost := state in
       Ok (count, r, ost)
      else
       let r := wr r ro x2 in
       let ost := state in
       Ok (count, r, ost)
    else
     hz_wctomb_j buf state wc n ro r ost)
  else
   hz_wctomb_j buf state wc n ro r ost)).

(* lib/converters/hz.h:181-195 hz_reset *)
Definition hz_reset (n : nat) (ost : Z) : res (Z * wlog * Z) :=
  let r := ([] : wlog) in
  let state := ost in
  if (negb (state =? 0)) then
   if (Nat.ltb n 2%nat) then
    Ok ((-2), r, ost)
   else
    let r := wr r 0%nat 0x7e in
    let r := wr r 1%nat 0x7d in
    Ok (2, r, ost)
  else
   Ok (0, r, ost).

(* lib/converters/iso2022_cn.h:62-222 iso2022_cn_mbtowc *)
Definition iso2022_cn_mbtowc_j2 (count : Z) (state1 : Z) (state2 : Z) (state3 : Z) (x2 : Z) (s : list Z) (pwc : option Z) (ibo : Z) : res (Z * option Z * Z * Z) :=
  if (x2 =? 0x4e) then
   if (state3 =? 0) then
    let state := (Z.lor (Z.lor (Z.shiftl state3 0x10) (Z.shiftl state2 8)) state1) in
    let ist := state in
    ck (2 * count) (fun k1 =>
    Ok (((-1) - k1), pwc, ist, ibo))
   else
    if (state3 =? 1) then
     rd s 2%nat (fun x9 =>
     if (x9 <? 0x80) then
      rd s 3%nat (fun x10 =>
      if (x10 <? 0x80) then
       bind (cns11643_2_mbtowc (skipn 2%nat s) 2%nat) (fun '(ret, o) =>
       let pwc := oset pwc o in
       if (ret =? (-1)) then
        let state := (Z.lor (Z.lor (Z.shiftl state3 0x10) (Z.shiftl state2 8)) state1) in
        let ist := state in
        ck (2 * count) (fun k2 =>
        Ok (((-1) - k2), pwc, ist, ibo))
       else
        if (negb (ret =? 2)) then
         Abort
        else
         let state := (Z.lor (Z.lor (Z.shiftl state3 0x10) (Z.shiftl state2 8)) state1) in
         let ist := state in
         ck (count + 4) (fun k3 =>
         Ok (k3, pwc, ist, ibo)))
      else
       let state := (Z.lor (Z.lor (Z.shiftl state3 0x10) (Z.shiftl state2 8)) state1) in
       let ist := state in
       ck (2 * count) (fun k4 =>
       Ok (((-1) - k4), pwc, ist, ibo)))
     else
      let state := (Z.lor (Z.lor (Z.shiftl state3 0x10) (Z.shiftl state2 8)) state1) in
      let ist := state in
      ck (2 * count) (fun k5 =>
      Ok (((-1) - k5), pwc, ist, ibo)))
    else
     Abort
  else
   let state := (Z.lor (Z.lor (Z.shiftl state3 0x10) (Z.shiftl state2 8)) state1) in
   let ist := state in
   ck (2 * count) (fun k6 =>
   Ok (((-1) - k6), pwc, ist, ibo)).
(* lib/converters/iso2022_cn.h:62-222 iso2022_cn_mbtowc *)
Definition iso2022_cn_mbtowc_j3 (count : Z) (state1 : Z) (pwc : option Z) (ibo : Z) : res (Z * option Z * Z * Z) :=
  let state2 := 0 in
  let state3 := 0 in
  let state := (Z.lor (Z.lor (Z.shiftl state3 0x10) (Z.shiftl state2 8)) state1) in
  let ist := state in
  ck (count + 1) (fun k7 =>
  Ok (k7, pwc, ist, ibo)).
(* lib/converters/iso2022_cn.h:62-222 iso2022_cn_mbtowc *)
Definition iso2022_cn_mbtowc_j4 (count : Z) (ret : Z) (state1 : Z) (state2 : Z) (state3 : Z) (pwc : option Z) (ibo : Z) : res (Z * option Z * Z * Z) :=
  if (ret =? (-1)) then
   let state := (Z.lor (Z.lor (Z.shiftl state3 0x10) (Z.shiftl state2 8)) state1) in
   let ist := state in
   ck (2 * count) (fun k8 =>
   Ok (((-1) - k8), pwc, ist, ibo))
  else
   if (negb (ret =? 2)) then
    Abort
   else
    let state := (Z.lor (Z.lor (Z.shiftl state3 0x10) (Z.shiftl state2 8)) state1) in
    let ist := state in
    ck (count + 2) (fun k9 =>
    Ok (k9, pwc, ist, ibo)).
(* lib/converters/iso2022_cn.h:62-222 iso2022_cn_mbtowc *)
Fixpoint iso2022_cn_mbtowc_loop (fuel : nat) (count : Z) (state1 : Z) (state2 : Z) (state3 : Z) (s : list Z) (n : nat) (pwc : option Z) (ibo : Z) {struct fuel} : res (Z * option Z * Z * Z) :=
  match fuel with O => NoFuel | S fuel =>
  rd s 0%nat (fun c =>
  if (c =? 0x1b) then
   ck (count + 4) (fun k10 =>
   if (Nat.ltb n (Z.to_nat k10)) then
    let state := (Z.lor (Z.lor (Z.shiftl state3 0x10) (Z.shiftl state2 8)) state1) in
    let ist := state in
    ck (2 * count) (fun k11 =>
    ck ((-2) - k11) (fun k12 =>
    Ok (k12, pwc, ist, ibo)))
   else
    rd s 1%nat (fun x2 =>
    if (x2 =? 0x24) then
     rd s 2%nat (fun x3 =>
     if (x3 =? 0x29) then
      rd s 3%nat (fun x4 =>
      if (x4 =? 0x41) then
       let state2 := 1 in
       let s := skipn 4%nat s in
       ck (count + 4) (fun k13 =>
       let count := k13 in
       ck (count + 1) (fun k14 =>
       if (Nat.ltb n (Z.to_nat k14)) then
        let state := (Z.lor (Z.lor (Z.shiftl state3 0x10) (Z.shiftl state2 8)) state1) in
        let ist := state in
        ck (2 * count) (fun k15 =>
        ck ((-2) - k15) (fun k16 =>
        Ok (k16, pwc, ist, ibo)))
       else
        iso2022_cn_mbtowc_loop fuel count state1 state2 state3 s n pwc ibo))
      else
       if (x4 =? 0x47) then
        let state2 := 2 in
        let s := skipn 4%nat s in
        ck (count + 4) (fun k17 =>
        let count := k17 in
        ck (count + 1) (fun k18 =>
        if (Nat.ltb n (Z.to_nat k18)) then
         let state := (Z.lor (Z.lor (Z.shiftl state3 0x10) (Z.shiftl state2 8)) state1) in
         let ist := state in
         ck (2 * count) (fun k19 =>
         ck ((-2) - k19) (fun k20 =>
         Ok (k20, pwc, ist, ibo)))
        else
         iso2022_cn_mbtowc_loop fuel count state1 state2 state3 s n pwc ibo))
       else
        iso2022_cn_mbtowc_j fuel count state1 state2 state3 x2 x3 s n pwc ibo)
     else
      iso2022_cn_mbtowc_j fuel count state1 state2 state3 x2 x3 s n pwc ibo)
    else
     iso2022_cn_mbtowc_j2 count state1 state2 state3 x2 s pwc ibo))
  else
   if (c =? 0xe) then
    if ((negb (state2 =? 1)) &&& (negb (state2 =? 2))) then
     let state := (Z.lor (Z.lor (Z.shiftl state3 0x10) (Z.shiftl state2 8)) state1) in
     let ist := state in
     ck (2 * count) (fun k21 =>
     Ok (((-1) - k21), pwc, ist, ibo))
    else
     let state1 := 1 in
     let s := skipn 1%nat s in
     ck (count + 1) (fun k22 =>
     let count := k22 in
     ck (count + 1) (fun k23 =>
     if (Nat.ltb n (Z.to_nat k23)) then
      let state := (Z.lor (Z.lor (Z.shiftl state3 0x10) (Z.shiftl state2 8)) state1) in
      let ist := state in
      ck (2 * count) (fun k24 =>
      ck ((-2) - k24) (fun k25 =>
      Ok (k25, pwc, ist, ibo)))
     else
      iso2022_cn_mbtowc_loop fuel count state1 state2 state3 s n pwc ibo))
   else
    if (c =? 0xf) then
     let state1 := 0 in
     let s := skipn 1%nat s in
     ck (count + 1) (fun k26 =>
     let count := k26 in
     ck (count + 1) (fun k27 =>
     if (Nat.ltb n (Z.to_nat k27)) then
      let state := (Z.lor (Z.lor (Z.shiftl state3 0x10) (Z.shiftl state2 8)) state1) in
      let ist := state in
      ck (2 * count) (fun k28 =>
      ck ((-2) - k28) (fun k29 =>
      Ok (k29, pwc, ist, ibo)))
     else
      iso2022_cn_mbtowc_loop fuel count state1 state2 state3 s n pwc ibo))
    else
     if (state1 =? 0) then
      if (c <? 0x80) then
       bind (ascii_mbtowc s 1%nat) (fun '(ret, o) =>
       let pwc := oset pwc o in
       if (ret =? (-1)) then
        let state := (Z.lor (Z.lor (Z.shiftl state3 0x10) (Z.shiftl state2 8)) state1) in
        let ist := state in
        ck (2 * count) (fun k30 =>
        Ok (((-1) - k30), pwc, ist, ibo))
       else
        if (negb (ret =? 1)) then
         Abort
        else
         oget pwc (fun x13 =>
         if (x13 =? 0xa) then
          iso2022_cn_mbtowc_j3 count state1 pwc ibo
         else
          if (x13 =? 0xd) then
           iso2022_cn_mbtowc_j3 count state1 pwc ibo
          else
           let state := (Z.lor (Z.lor (Z.shiftl state3 0x10) (Z.shiftl state2 8)) state1) in
           let ist := state in
           ck (count + 1) (fun k31 =>
           Ok (k31, pwc, ist, ibo))))
      else
       let state := (Z.lor (Z.lor (Z.shiftl state3 0x10) (Z.shiftl state2 8)) state1) in
       let ist := state in
       ck (2 * count) (fun k32 =>
       Ok (((-1) - k32), pwc, ist, ibo))
     else
      if (state1 =? 1) then
       ck (count + 2) (fun k33 =>
       if (Nat.ltb n (Z.to_nat k33)) then
        let state := (Z.lor (Z.lor (Z.shiftl state3 0x10) (Z.shiftl state2 8)) state1) in
        let ist := state in
        ck (2 * count) (fun k34 =>
        ck ((-2) - k34) (fun k35 =>
        Ok (k35, pwc, ist, ibo)))
       else
        rd s 0%nat (fun x15 =>
        if (x15 <? 0x80) then
         rd s 1%nat (fun x16 =>
         if (x16 <? 0x80) then
          if (state2 =? 0) then
           let state := (Z.lor (Z.lor (Z.shiftl state3 0x10) (Z.shiftl state2 8)) state1) in
           let ist := state in
           ck (2 * count) (fun k36 =>
           Ok (((-1) - k36), pwc, ist, ibo))
          else
           if (state2 =? 1) then
            bind (gb2312_mbtowc s 2%nat) (fun '(ret, o) =>
            let pwc := oset pwc o in
            iso2022_cn_mbtowc_j4 count ret state1 state2 state3 pwc ibo)
           else
            if (state2 =? 2) then
             bind (cns11643_1_mbtowc s 2%nat) (fun '(ret, o) =>
             let pwc := oset pwc o in
             iso2022_cn_mbtowc_j4 count ret state1 state2 state3 pwc ibo)
            else
             Abort
         else
          let state := (Z.lor (Z.lor (Z.shiftl state3 0x10) (Z.shiftl state2 8)) state1) in
          let ist := state in
          ck (2 * count) (fun k37 =>
          Ok (((-1) - k37), pwc, ist, ibo)))
        else
         let state := (Z.lor (Z.lor (Z.shiftl state3 0x10) (Z.shiftl state2 8)) state1) in
         let ist := state in
         ck (2 * count) (fun k38 =>
         Ok (((-1) - k38), pwc, ist, ibo))))
      else
       Abort)
  end
with iso2022_cn_mbtowc_j (fuel : nat) (count : Z) (state1 : Z) (state2 : Z) (state3 : Z) (x2 : Z) (x3 : Z) (s : list Z) (n : nat) (pwc : option Z) (ibo : Z) {struct fuel} : res (Z * option Z * Z * Z) :=
  match fuel with O => NoFuel | S fuel =>
  if (x3 =? 0x2a) then
   rd s 3%nat (fun x7 =>
   if (x7 =? 0x48) then
    let state3 := 1 in
    let s := skipn 4%nat s in
    ck (count + 4) (fun k39 =>
    let count := k39 in
    ck (count + 1) (fun k40 =>
    if (Nat.ltb n (Z.to_nat k40)) then
     let state := (Z.lor (Z.lor (Z.shiftl state3 0x10) (Z.shiftl state2 8)) state1) in
     let ist := state in
     ck (2 * count) (fun k41 =>
     ck ((-2) - k41) (fun k42 =>
     Ok (k42, pwc, ist, ibo)))
    else
     iso2022_cn_mbtowc_loop fuel count state1 state2 state3 s n pwc ibo))
   else
    iso2022_cn_mbtowc_j2 count state1 state2 state3 x2 s pwc ibo)
  else
   iso2022_cn_mbtowc_j2 count state1 state2 state3 x2 s pwc ibo
  end.
(* lib/converters/iso2022_cn.h:62-222 iso2022_cn_mbtowc *)
Definition iso2022_cn_mbtowc (s : list Z) (n : nat) (ist : Z) (ibo : Z) : res (Z * option Z * Z * Z) :=
  let pwc := (None : option Z) in
  let state := ist in
  let state1 := (Z.land state 0xff) in
  let state2 := (Z.land (Z.shiftr state 8) 0xff) in
  let state3 := (Z.shiftr state 0x10) in
  let count := 0 in
  iso2022_cn_mbtowc_loop (8 + 4 * n)%nat count state1 state2 state3 s n pwc ibo.

(* lib/converters/iso2022_cn.h:224-357 iso2022_cn_wctomb *)
Definition iso2022_cn_wctomb_j (count : Z) (state1 : Z) (state2 : Z) (state3 : Z) (wc : Z) (x2 : Z) (ro : nat) (r : wlog) : res (Z * wlog * Z) :=
  let r := wr r ro x2 in
  if ((wc =? 0xa) ||| (wc =? 0xd)) then
   let state2 := 0 in
   let state3 := 0 in
   let state := (Z.lor (Z.lor (Z.shiftl state3 0x10) (Z.shiftl state2 8)) state1) in
   let ost := state in
   Ok (count, r, ost)
  else
   let state := (Z.lor (Z.lor (Z.shiftl state3 0x10) (Z.shiftl state2 8)) state1) in
   let ost := state in
   Ok (count, r, ost).
(* lib/converters/iso2022_cn.h:224-357 iso2022_cn_wctomb *)
Definition iso2022_cn_wctomb_j4 (count : Z) (state1 : Z) (state2 : Z) (state3 : Z) (x5 : Z) (x6 : Z) (ro : nat) (r : wlog) : res (Z * wlog * Z) :=
  let r := wr r ro x5 in
  let r := wr r (Nat.add ro 1%nat) x6 in
  let state := (Z.lor (Z.lor (Z.shiftl state3 0x10) (Z.shiftl state2 8)) state1) in
  let ost := state in
  Ok (count, r, ost).
(* lib/converters/iso2022_cn.h:224-357 iso2022_cn_wctomb *)
Definition iso2022_cn_wctomb_j3 (count : Z) (state1 : Z) (state2 : Z) (state3 : Z) (x5 : Z) (x6 : Z) (ro : nat) (r : wlog) : res (Z * wlog * Z) :=
  if (negb (state1 =? 1)) then
   let r := wr r ro 0xe in
   let ro := (Nat.add ro 1%nat) in
   let state1 := 1 in
   iso2022_cn_wctomb_j4 count state1 state2 state3 x5 x6 ro r
  else
   iso2022_cn_wctomb_j4 count state1 state2 state3 x5 x6 ro r.
(* lib/converters/iso2022_cn.h:224-357 iso2022_cn_wctomb *)
Definition iso2022_cn_wctomb_j8 (count : Z) (state1 : Z) (state2 : Z) (state3 : Z) (x11 : Z) (x12 : Z) (ro : nat) (r : wlog) : res (Z * wlog * Z) :=
  let r := wr r ro x11 in
  let r := wr r (Nat.add ro 1%nat) x12 in
  let state := (Z.lor (Z.lor (Z.shiftl state3 0x10) (Z.shiftl state2 8)) state1) in
  let ost := state in
  Ok (count, r, ost).
(* lib/converters/iso2022_cn.h:224-357 iso2022_cn_wctomb *)
Definition iso2022_cn_wctomb_j7 (count : Z) (state1 : Z) (state2 : Z) (state3 : Z) (x11 : Z) (x12 : Z) (ro : nat) (r : wlog) : res (Z * wlog * Z) :=
  if (negb (state1 =? 1)) then
   let r := wr r ro 0xe in
   let ro := (Nat.add ro 1%nat) in
   let state1 := 1 in
   iso2022_cn_wctomb_j8 count state1 state2 state3 x11 x12 ro r
  else
   iso2022_cn_wctomb_j8 count state1 state2 state3 x11 x12 ro r.
(* lib/converters/iso2022_cn.h:224-357 iso2022_cn_wctomb *)
Definition iso2022_cn_wctomb_j9 (count : Z) (state1 : Z) (state2 : Z) (state3 : Z) (x16 : Z) (x17 : Z) (ro : nat) (r : wlog) : res (Z * wlog * Z) :=
  let r := wr r ro 0x1b in
  let r := wr r (Nat.add ro 1%nat) 0x4e in
  let r := wr r (Nat.add ro 2%nat) x16 in
  let r := wr r (Nat.add ro 3%nat) x17 in
  let state := (Z.lor (Z.lor (Z.shiftl state3 0x10) (Z.shiftl state2 8)) state1) in
  let ost := state in
  Ok (count, r, ost).
(* lib/converters/iso2022_cn.h:224-357 iso2022_cn_wctomb *)
Definition iso2022_cn_wctomb_j6 (buf : wlog) (state1 : Z) (state2 : Z) (state3 : Z) (x10 : Z) (n : nat) (ro : nat) (r : wlog) (ost : Z) : res (Z * wlog * Z) :=
  if (x10 =? 2) then
   lrd buf 1%nat (fun x16 =>
   if (x16 <? 0x80) then
    lrd buf 2%nat (fun x17 =>
    if (x17 <? 0x80) then
     let count := ((if (state3 =? 1) then 0 else 4) + 4) in
     if (Nat.ltb n (Z.to_nat count)) then
      Ok ((-2), r, ost)
     else
      if (negb (state3 =? 1)) then
       let r := wr r ro 0x1b in
       let r := wr r (Nat.add ro 1%nat) 0x24 in
       let r := wr r (Nat.add ro 2%nat) 0x2a in
       let r := wr r (Nat.add ro 3%nat) 0x48 in
       let ro := (Nat.add ro 4%nat) in
       let state3 := 1 in
       iso2022_cn_wctomb_j9 count state1 state2 state3 x16 x17 ro r
      else
       iso2022_cn_wctomb_j9 count state1 state2 state3 x16 x17 ro r
    else
     Ok ((-1), r, ost))
   else
    Ok ((-1), r, ost))
  else
   Ok ((-1), r, ost).
(* lib/converters/iso2022_cn.h:224-357 iso2022_cn_wctomb *)
Definition iso2022_cn_wctomb_j5 (buf : wlog) (state1 : Z) (state2 : Z) (state3 : Z) (wc : Z) (n : nat) (ro : nat) (r : wlog) (ost : Z) : res (Z * wlog * Z) :=
  bind (cns11643_inv_wctomb wc 3%nat) (fun '(ret, l) =>
  lappb 3%nat buf 0%nat l (fun buf =>
  if (negb (ret =? (-1))) then
   if (negb (ret =? 3)) then
    Abort
   else
    lrd buf 0%nat (fun x10 =>
    if (x10 =? 1) then
     lrd buf 1%nat (fun x11 =>
     if (x11 <? 0x80) then
      lrd buf 2%nat (fun x12 =>
      if (x12 <? 0x80) then
       let count := (((if (state2 =? 2) then 0 else 4) + (if (state1 =? 1) then 0 else 1)) + 2) in
       if (Nat.ltb n (Z.to_nat count)) then
        Ok ((-2), r, ost)
       else
        if (negb (state2 =? 2)) then
         let r := wr r ro 0x1b in
         let r := wr r (Nat.add ro 1%nat) 0x24 in
         let r := wr r (Nat.add ro 2%nat) 0x29 in
         let r := wr r (Nat.add ro 3%nat) 0x47 in
         let ro := (Nat.add ro 4%nat) in
         let state2 := 2 in
         iso2022_cn_wctomb_j7 count state1 state2 state3 x11 x12 ro r
        else
         iso2022_cn_wctomb_j7 count state1 state2 state3 x11 x12 ro r
      else
       iso2022_cn_wctomb_j6 buf state1 state2 state3 x10 n ro r ost)
     else
      iso2022_cn_wctomb_j6 buf state1 state2 state3 x10 n ro r ost)
    else
     iso2022_cn_wctomb_j6 buf state1 state2 state3 x10 n ro r ost)
  else
   Ok ((-1), r, ost))).
(* lib/converters/iso2022_cn.h:224-357 iso2022_cn_wctomb *)
Definition iso2022_cn_wctomb_j2 (buf : wlog) (state1 : Z) (state2 : Z) (state3 : Z) (wc : Z) (n : nat) (ro : nat) (r : wlog) (ost : Z) : res (Z * wlog * Z) :=
  bind (gb2312_wctomb wc 2%nat) (fun '(ret, l) =>
  lappb 3%nat buf 0%nat l (fun buf =>
  if (negb (ret =? (-1))) then
   if (negb (ret =? 2)) then
    Abort
   else
    lrd buf 0%nat (fun x5 =>
    if (x5 <? 0x80) then
     lrd buf 1%nat (fun x6 =>
     if (x6 <? 0x80) then
      let count := (((if (state2 =? 1) then 0 else 4) + (if (state1 =? 1) then 0 else 1)) + 2) in
      if (Nat.ltb n (Z.to_nat count)) then
       Ok ((-2), r, ost)
      else
       if (negb (state2 =? 1)) then
        let r := wr r ro 0x1b in
        let r := wr r (Nat.add ro 1%nat) 0x24 in
        let r := wr r (Nat.add ro 2%nat) 0x29 in
        let r := wr r (Nat.add ro 3%nat) 0x41 in
        let ro := (Nat.add ro 4%nat) in
        let state2 := 1 in
        iso2022_cn_wctomb_j3 count state1 state2 state3 x5 x6 ro r
       else
        iso2022_cn_wctomb_j3 count state1 state2 state3 x5 x6 ro r
     else
      iso2022_cn_wctomb_j5 buf state1 state2 state3 wc n ro r ost)
    else
     iso2022_cn_wctomb_j5 buf state1 state2 state3 wc n ro r ost)
  else
   iso2022_cn_wctomb_j5 buf state1 state2 state3 wc n ro r ost)).
(* lib/converters/iso2022_cn.h:224-357 iso2022_cn_wctomb *)
Definition iso2022_cn_wctomb (wc : Z) (n : nat) (ost : Z) : res (Z * wlog * Z) :=
  let r := ([] : wlog) in
  let ro := 0%nat in
  let state := ost in
  let state1 := (Z.land state 0xff) in
  let state2 := (Z.land (Z.shiftr state 8) 0xff) in
  let state3 := (Z.shiftr state 0x10) in
  let buf := ([] : wlog) in
  bind (ascii_wctomb wc 1%nat) (fun '(ret, l) =>
  lappb 3%nat buf 0%nat l (fun buf =>
  if (negb (ret =? (-1))) then
   if (negb (ret =? 1)) then
    Abort
   else
    lrd buf 0%nat (fun x2 =>
    if (x2 <? 0x80) then
     let count := (if (state1 =? 0) then 1 else 2) in
     if (Nat.ltb n (Z.to_nat count)) then
      Ok ((-2), r, ost)
     else
      if (negb (state1 =? 0)) then
       let r := wr r ro 0xf in
       let ro := (Nat.add ro 1%nat) in
       let state1 := 0 in
       iso2022_cn_wctomb_j count state1 state2 state3 wc x2 ro r
      else
       iso2022_cn_wctomb_j count state1 state2 state3 wc x2 ro r
    else
     iso2022_cn_wctomb_j2 buf state1 state2 state3 wc n ro r ost)
  else
   iso2022_cn_wctomb_j2 buf state1 state2 state3 wc n ro r ost)).

(* lib/converters/iso2022_cn.h:359-375 iso2022_cn_reset *)
Definition iso2022_cn_reset (n : nat) (ost : Z) : res (Z * wlog * Z) :=
  let r := ([] : wlog) in
  let state := ost in
  let state1 := (Z.land state 0xff) in
  let state2 := (Z.land (Z.shiftr state 8) 0xff) in
  let state3 := (Z.shiftr state 0x10) in
  if (negb (state1 =? 0)) then
   if (Nat.ltb n 1%nat) then
    Ok ((-2), r, ost)
   else
    let r := wr r 0%nat 0xf in
    Ok (1, r, ost)
  else
   Ok (0, r, ost).

(* lib/converters/iso2022_cnext.h:80-382 iso2022_cn_ext_mbtowc *)
Definition iso2022_cn_ext_mbtowc_j3 (count : Z) (state1 : Z) (state2 : Z) (state3 : Z) (state4 : Z) (x2 : Z) (s : list Z) (pwc : option Z) (ibo : Z) : res (Z * option Z * Z * Z) :=
  if (x2 =? 0x4e) then
   if (state3 =? 0) then
    let state := (Z.lor (Z.lor (Z.lor (Z.shiftl state4 0x18) (Z.shiftl state3 0x10)) (Z.shiftl state2 8)) state1) in
    let ist := state in
    ck (2 * count) (fun k1 =>
    Ok (((-1) - k1), pwc, ist, ibo))
   else
    if (state3 =? 1) then
     rd s 2%nat (fun x16 =>
     if (x16 <? 0x80) then
      rd s 3%nat (fun x17 =>
      if (x17 <? 0x80) then
       bind (cns11643_2_mbtowc (skipn 2%nat s) 2%nat) (fun '(ret, o) =>
       let pwc := oset pwc o in
       if (ret =? (-1)) then
        let state := (Z.lor (Z.lor (Z.lor (Z.shiftl state4 0x18) (Z.shiftl state3 0x10)) (Z.shiftl state2 8)) state1) in
        let ist := state in
        ck (2 * count) (fun k2 =>
        Ok (((-1) - k2), pwc, ist, ibo))
       else
        if (negb (ret =? 2)) then
         Abort
        else
         let state := (Z.lor (Z.lor (Z.lor (Z.shiftl state4 0x18) (Z.shiftl state3 0x10)) (Z.shiftl state2 8)) state1) in
         let ist := state in
         ck (count + 4) (fun k3 =>
         Ok (k3, pwc, ist, ibo)))
      else
       let state := (Z.lor (Z.lor (Z.lor (Z.shiftl state4 0x18) (Z.shiftl state3 0x10)) (Z.shiftl state2 8)) state1) in
       let ist := state in
       ck (2 * count) (fun k4 =>
       Ok (((-1) - k4), pwc, ist, ibo)))
     else
      let state := (Z.lor (Z.lor (Z.lor (Z.shiftl state4 0x18) (Z.shiftl state3 0x10)) (Z.shiftl state2 8)) state1) in
      let ist := state in
      ck (2 * count) (fun k5 =>
      Ok (((-1) - k5), pwc, ist, ibo)))
    else
     Abort
  else
   if (x2 =? 0x4f) then
    if (state4 =? 0) then
     let state := (Z.lor (Z.lor (Z.lor (Z.shiftl state4 0x18) (Z.shiftl state3 0x10)) (Z.shiftl state2 8)) state1) in
     let ist := state in
     ck (2 * count) (fun k6 =>
     Ok (((-1) - k6), pwc, ist, ibo))
    else
     if (state4 =? 1) then
      rd s 2%nat (fun x20 =>
      if (x20 <? 0x80) then
       rd s 3%nat (fun x21 =>
       if (x21 <? 0x80) then
        bind (cns11643_3_mbtowc (skipn 2%nat s) 2%nat) (fun '(ret, o) =>
        let pwc := oset pwc o in
        if (ret =? (-1)) then
         let state := (Z.lor (Z.lor (Z.lor (Z.shiftl state4 0x18) (Z.shiftl state3 0x10)) (Z.shiftl state2 8)) state1) in
         let ist := state in
         ck (2 * count) (fun k7 =>
         Ok (((-1) - k7), pwc, ist, ibo))
        else
         if (negb (ret =? 2)) then
          Abort
         else
          let state := (Z.lor (Z.lor (Z.lor (Z.shiftl state4 0x18) (Z.shiftl state3 0x10)) (Z.shiftl state2 8)) state1) in
          let ist := state in
          ck (count + 4) (fun k8 =>
          Ok (k8, pwc, ist, ibo)))
       else
        let state := (Z.lor (Z.lor (Z.lor (Z.shiftl state4 0x18) (Z.shiftl state3 0x10)) (Z.shiftl state2 8)) state1) in
        let ist := state in
        ck (2 * count) (fun k9 =>
        Ok (((-1) - k9), pwc, ist, ibo)))
      else
       let state := (Z.lor (Z.lor (Z.lor (Z.shiftl state4 0x18) (Z.shiftl state3 0x10)) (Z.shiftl state2 8)) state1) in
       let ist := state in
       ck (2 * count) (fun k10 =>
       Ok (((-1) - k10), pwc, ist, ibo)))
     else
      if (state4 =? 2) then
       rd s 2%nat (fun x23 =>
       if (x23 <? 0x80) then
        rd s 3%nat (fun x24 =>
        if (x24 <? 0x80) then
         bind (cns11643_4_mbtowc (skipn 2%nat s) 2%nat) (fun '(ret, o) =>
         let pwc := oset pwc o in
         if (ret =? (-1)) then
          let state := (Z.lor (Z.lor (Z.lor (Z.shiftl state4 0x18) (Z.shiftl state3 0x10)) (Z.shiftl state2 8)) state1) in
          let ist := state in
          ck (2 * count) (fun k11 =>
          Ok (((-1) - k11), pwc, ist, ibo))
         else
          if (negb (ret =? 2)) then
           Abort
          else
           let state := (Z.lor (Z.lor (Z.lor (Z.shiftl state4 0x18) (Z.shiftl state3 0x10)) (Z.shiftl state2 8)) state1) in
           let ist := state in
           ck (count + 4) (fun k12 =>
           Ok (k12, pwc, ist, ibo)))
        else
         let state := (Z.lor (Z.lor (Z.lor (Z.shiftl state4 0x18) (Z.shiftl state3 0x10)) (Z.shiftl state2 8)) state1) in
         let ist := state in
         ck (2 * count) (fun k13 =>
         Ok (((-1) - k13), pwc, ist, ibo)))
       else
        let state := (Z.lor (Z.lor (Z.lor (Z.shiftl state4 0x18) (Z.shiftl state3 0x10)) (Z.shiftl state2 8)) state1) in
        let ist := state in
        ck (2 * count) (fun k14 =>
        Ok (((-1) - k14), pwc, ist, ibo)))
      else
       if (state4 =? 3) then
        rd s 2%nat (fun x26 =>
        if (x26 <? 0x80) then
         rd s 3%nat (fun x27 =>
         if (x27 <? 0x80) then
          bind (cns11643_5_mbtowc (skipn 2%nat s) 2%nat) (fun '(ret, o) =>
          let pwc := oset pwc o in
          if (ret =? (-1)) then
           let state := (Z.lor (Z.lor (Z.lor (Z.shiftl state4 0x18) (Z.shiftl state3 0x10)) (Z.shiftl state2 8)) state1) in
           let ist := state in
           ck (2 * count) (fun k15 =>
           Ok (((-1) - k15), pwc, ist, ibo))
          else
           if (negb (ret =? 2)) then
            Abort
           else
            let state := (Z.lor (Z.lor (Z.lor (Z.shiftl state4 0x18) (Z.shiftl state3 0x10)) (Z.shiftl state2 8)) state1) in
            let ist := state in
            ck (count + 4) (fun k16 =>
            Ok (k16, pwc, ist, ibo)))
         else
          let state := (Z.lor (Z.lor (Z.lor (Z.shiftl state4 0x18) (Z.shiftl state3 0x10)) (Z.shiftl state2 8)) state1) in
          let ist := state in
          ck (2 * count) (fun k17 =>
          Ok (((-1) - k17), pwc, ist, ibo)))
        else
         let state := (Z.lor (Z.lor (Z.lor (Z.shiftl state4 0x18) (Z.shiftl state3 0x10)) (Z.shiftl state2 8)) state1) in
         let ist := state in
         ck (2 * count) (fun k18 =>
         Ok (((-1) - k18), pwc, ist, ibo)))
       else
        if (state4 =? 4) then
         rd s 2%nat (fun x29 =>
         if (x29 <? 0x80) then
          rd s 3%nat (fun x30 =>
          if (x30 <? 0x80) then
           bind (cns11643_6_mbtowc (skipn 2%nat s) 2%nat) (fun '(ret, o) =>
           let pwc := oset pwc o in
           if (ret =? (-1)) then
            let state := (Z.lor (Z.lor (Z.lor (Z.shiftl state4 0x18) (Z.shiftl state3 0x10)) (Z.shiftl state2 8)) state1) in
            let ist := state in
            ck (2 * count) (fun k19 =>
            Ok (((-1) - k19), pwc, ist, ibo))
           else
            if (negb (ret =? 2)) then
             Abort
            else
             let state := (Z.lor (Z.lor (Z.lor (Z.shiftl state4 0x18) (Z.shiftl state3 0x10)) (Z.shiftl state2 8)) state1) in
             let ist := state in
             ck (count + 4) (fun k20 =>
             Ok (k20, pwc, ist, ibo)))
          else
           let state := (Z.lor (Z.lor (Z.lor (Z.shiftl state4 0x18) (Z.shiftl state3 0x10)) (Z.shiftl state2 8)) state1) in
           let ist := state in
           ck (2 * count) (fun k21 =>
           Ok (((-1) - k21), pwc, ist, ibo)))
         else
          let state := (Z.lor (Z.lor (Z.lor (Z.shiftl state4 0x18) (Z.shiftl state3 0x10)) (Z.shiftl state2 8)) state1) in
          let ist := state in
          ck (2 * count) (fun k22 =>
          Ok (((-1) - k22), pwc, ist, ibo)))
        else
         if (state4 =? 5) then
          rd s 2%nat (fun x32 =>
          if (x32 <? 0x80) then
           rd s 3%nat (fun x33 =>
           if (x33 <? 0x80) then
            bind (cns11643_7_mbtowc (skipn 2%nat s) 2%nat) (fun '(ret, o) =>
            let pwc := oset pwc o in
            if (ret =? (-1)) then
             let state := (Z.lor (Z.lor (Z.lor (Z.shiftl state4 0x18) (Z.shiftl state3 0x10)) (Z.shiftl state2 8)) state1) in
             let ist := state in
             ck (2 * count) (fun k23 =>
             Ok (((-1) - k23), pwc, ist, ibo))
            else
             if (negb (ret =? 2)) then
              Abort
             else
              let state := (Z.lor (Z.lor (Z.lor (Z.shiftl state4 0x18) (Z.shiftl state3 0x10)) (Z.shiftl state2 8)) state1) in
              let ist := state in
              ck (count + 4) (fun k24 =>
              Ok (k24, pwc, ist, ibo)))
           else
            let state := (Z.lor (Z.lor (Z.lor (Z.shiftl state4 0x18) (Z.shiftl state3 0x10)) (Z.shiftl state2 8)) state1) in
            let ist := state in
            ck (2 * count) (fun k25 =>
            Ok (((-1) - k25), pwc, ist, ibo)))
          else
           let state := (Z.lor (Z.lor (Z.lor (Z.shiftl state4 0x18) (Z.shiftl state3 0x10)) (Z.shiftl state2 8)) state1) in
           let ist := state in
           ck (2 * count) (fun k26 =>
           Ok (((-1) - k26), pwc, ist, ibo)))
         else
          Abort
   else
    let state := (Z.lor (Z.lor (Z.lor (Z.shiftl state4 0x18) (Z.shiftl state3 0x10)) (Z.shiftl state2 8)) state1) in
    let ist := state in
    ck (2 * count) (fun k27 =>
    Ok (((-1) - k27), pwc, ist, ibo)).
(* lib/converters/iso2022_cnext.h:80-382 iso2022_cn_ext_mbtowc *)
Definition iso2022_cn_ext_mbtowc_j4 (count : Z) (state1 : Z) (pwc : option Z) (ibo : Z) : res (Z * option Z * Z * Z) :=
  let state2 := 0 in
  let state3 := 0 in
  let state4 := 0 in
  let state := (Z.lor (Z.lor (Z.lor (Z.shiftl state4 0x18) (Z.shiftl state3 0x10)) (Z.shiftl state2 8)) state1) in
  let ist := state in
  ck (count + 1) (fun k28 =>
  Ok (k28, pwc, ist, ibo)).
(* lib/converters/iso2022_cnext.h:80-382 iso2022_cn_ext_mbtowc *)
Definition iso2022_cn_ext_mbtowc_j5 (count : Z) (ret : Z) (state1 : Z) (state2 : Z) (state3 : Z) (state4 : Z) (pwc : option Z) (ibo : Z) : res (Z * option Z * Z * Z) :=
  if (ret =? (-1)) then
   let state := (Z.lor (Z.lor (Z.lor (Z.shiftl state4 0x18) (Z.shiftl state3 0x10)) (Z.shiftl state2 8)) state1) in
   let ist := state in
   ck (2 * count) (fun k29 =>
   Ok (((-1) - k29), pwc, ist, ibo))
  else
   if (negb (ret =? 2)) then
    Abort
   else
    let state := (Z.lor (Z.lor (Z.lor (Z.shiftl state4 0x18) (Z.shiftl state3 0x10)) (Z.shiftl state2 8)) state1) in
    let ist := state in
    ck (count + 2) (fun k30 =>
    Ok (k30, pwc, ist, ibo)).
(* lib/converters/iso2022_cnext.h:80-382 iso2022_cn_ext_mbtowc *)
Fixpoint iso2022_cn_ext_mbtowc_loop (fuel : nat) (count : Z) (state1 : Z) (state2 : Z) (state3 : Z) (state4 : Z) (s : list Z) (n : nat) (pwc : option Z) (ibo : Z) {struct fuel} : res (Z * option Z * Z * Z) :=
  match fuel with O => NoFuel | S fuel =>
  rd s 0%nat (fun c =>
  if (c =? 0x1b) then
   ck (count + 4) (fun k31 =>
   if (Nat.ltb n (Z.to_nat k31)) then
    let state := (Z.lor (Z.lor (Z.lor (Z.shiftl state4 0x18) (Z.shiftl state3 0x10)) (Z.shiftl state2 8)) state1) in
    let ist := state in
    ck (2 * count) (fun k32 =>
    ck ((-2) - k32) (fun k33 =>
    Ok (k33, pwc, ist, ibo)))
   else
    rd s 1%nat (fun x2 =>
    if (x2 =? 0x24) then
     rd s 2%nat (fun x3 =>
     if (x3 =? 0x29) then
      rd s 3%nat (fun x4 =>
      if (x4 =? 0x41) then
       let state2 := 1 in
       let s := skipn 4%nat s in
       ck (count + 4) (fun k34 =>
       let count := k34 in
       ck (count + 1) (fun k35 =>
       if (Nat.ltb n (Z.to_nat k35)) then
        let state := (Z.lor (Z.lor (Z.lor (Z.shiftl state4 0x18) (Z.shiftl state3 0x10)) (Z.shiftl state2 8)) state1) in
        let ist := state in
        ck (2 * count) (fun k36 =>
        ck ((-2) - k36) (fun k37 =>
        Ok (k37, pwc, ist, ibo)))
       else
        iso2022_cn_ext_mbtowc_loop fuel count state1 state2 state3 state4 s n pwc ibo))
      else
       if (x4 =? 0x47) then
        let state2 := 2 in
        let s := skipn 4%nat s in
        ck (count + 4) (fun k38 =>
        let count := k38 in
        ck (count + 1) (fun k39 =>
        if (Nat.ltb n (Z.to_nat k39)) then
         let state := (Z.lor (Z.lor (Z.lor (Z.shiftl state4 0x18) (Z.shiftl state3 0x10)) (Z.shiftl state2 8)) state1) in
         let ist := state in
         ck (2 * count) (fun k40 =>
         ck ((-2) - k40) (fun k41 =>
         Ok (k41, pwc, ist, ibo)))
        else
         iso2022_cn_ext_mbtowc_loop fuel count state1 state2 state3 state4 s n pwc ibo))
       else
        if (x4 =? 0x45) then
         let state2 := 3 in
         let s := skipn 4%nat s in
         ck (count + 4) (fun k42 =>
         let count := k42 in
         ck (count + 1) (fun k43 =>
         if (Nat.ltb n (Z.to_nat k43)) then
          let state := (Z.lor (Z.lor (Z.lor (Z.shiftl state4 0x18) (Z.shiftl state3 0x10)) (Z.shiftl state2 8)) state1) in
          let ist := state in
          ck (2 * count) (fun k44 =>
          ck ((-2) - k44) (fun k45 =>
          Ok (k45, pwc, ist, ibo)))
         else
          iso2022_cn_ext_mbtowc_loop fuel count state1 state2 state3 state4 s n pwc ibo))
        else
         iso2022_cn_ext_mbtowc_j fuel count state1 state2 state3 state4 x2 x3 s n pwc ibo)
     else
      iso2022_cn_ext_mbtowc_j fuel count state1 state2 state3 state4 x2 x3 s n pwc ibo)
    else
     iso2022_cn_ext_mbtowc_j3 count state1 state2 state3 state4 x2 s pwc ibo))
  else
   if (c =? 0xe) then
    if (((negb (state2 =? 1)) &&& (negb (state2 =? 2))) &&& (negb (state2 =? 3))) then
     let state := (Z.lor (Z.lor (Z.lor (Z.shiftl state4 0x18) (Z.shiftl state3 0x10)) (Z.shiftl state2 8)) state1) in
     let ist := state in
     ck (2 * count) (fun k46 =>
     Ok (((-1) - k46), pwc, ist, ibo))
    else
     let state1 := 1 in
     let s := skipn 1%nat s in
     ck (count + 1) (fun k47 =>
     let count := k47 in
     ck (count + 1) (fun k48 =>
     if (Nat.ltb n (Z.to_nat k48)) then
      let state := (Z.lor (Z.lor (Z.lor (Z.shiftl state4 0x18) (Z.shiftl state3 0x10)) (Z.shiftl state2 8)) state1) in
      let ist := state in
      ck (2 * count) (fun k49 =>
      ck ((-2) - k49) (fun k50 =>
      Ok (k50, pwc, ist, ibo)))
     else
      iso2022_cn_ext_mbtowc_loop fuel count state1 state2 state3 state4 s n pwc ibo))
   else
    if (c =? 0xf) then
     let state1 := 0 in
     let s := skipn 1%nat s in
     ck (count + 1) (fun k51 =>
     let count := k51 in
     ck (count + 1) (fun k52 =>
     if (Nat.ltb n (Z.to_nat k52)) then
      let state := (Z.lor (Z.lor (Z.lor (Z.shiftl state4 0x18) (Z.shiftl state3 0x10)) (Z.shiftl state2 8)) state1) in
      let ist := state in
      ck (2 * count) (fun k53 =>
      ck ((-2) - k53) (fun k54 =>
      Ok (k54, pwc, ist, ibo)))
     else
      iso2022_cn_ext_mbtowc_loop fuel count state1 state2 state3 state4 s n pwc ibo))
    else
     if (state1 =? 0) then
      if (c <? 0x80) then
       bind (ascii_mbtowc s 1%nat) (fun '(ret, o) =>
       let pwc := oset pwc o in
       if (ret =? (-1)) then
        let state := (Z.lor (Z.lor (Z.lor (Z.shiftl state4 0x18) (Z.shiftl state3 0x10)) (Z.shiftl state2 8)) state1) in
        let ist := state in
        ck (2 * count) (fun k55 =>
        Ok (((-1) - k55), pwc, ist, ibo))
       else
        if (negb (ret =? 1)) then
         Abort
        else
         oget pwc (fun x36 =>
         if (x36 =? 0xa) then
          iso2022_cn_ext_mbtowc_j4 count state1 pwc ibo
         else
          if (x36 =? 0xd) then
           iso2022_cn_ext_mbtowc_j4 count state1 pwc ibo
          else
           let state := (Z.lor (Z.lor (Z.lor (Z.shiftl state4 0x18) (Z.shiftl state3 0x10)) (Z.shiftl state2 8)) state1) in
           let ist := state in
           ck (count + 1) (fun k56 =>
           Ok (k56, pwc, ist, ibo))))
      else
       let state := (Z.lor (Z.lor (Z.lor (Z.shiftl state4 0x18) (Z.shiftl state3 0x10)) (Z.shiftl state2 8)) state1) in
       let ist := state in
       ck (2 * count) (fun k57 =>
       Ok (((-1) - k57), pwc, ist, ibo))
     else
      if (state1 =? 1) then
       ck (count + 2) (fun k58 =>
       if (Nat.ltb n (Z.to_nat k58)) then
        let state := (Z.lor (Z.lor (Z.lor (Z.shiftl state4 0x18) (Z.shiftl state3 0x10)) (Z.shiftl state2 8)) state1) in
        let ist := state in
        ck (2 * count) (fun k59 =>
        ck ((-2) - k59) (fun k60 =>
        Ok (k60, pwc, ist, ibo)))
       else
        rd s 0%nat (fun x38 =>
        if (x38 <? 0x80) then
         rd s 1%nat (fun x39 =>
         if (x39 <? 0x80) then
          if (state2 =? 0) then
           let state := (Z.lor (Z.lor (Z.lor (Z.shiftl state4 0x18) (Z.shiftl state3 0x10)) (Z.shiftl state2 8)) state1) in
           let ist := state in
           ck (2 * count) (fun k61 =>
           Ok (((-1) - k61), pwc, ist, ibo))
          else
           if (state2 =? 1) then
            bind (gb2312_mbtowc s 2%nat) (fun '(ret, o) =>
            let pwc := oset pwc o in
            iso2022_cn_ext_mbtowc_j5 count ret state1 state2 state3 state4 pwc ibo)
           else
            if (state2 =? 2) then
             bind (cns11643_1_mbtowc s 2%nat) (fun '(ret, o) =>
             let pwc := oset pwc o in
             iso2022_cn_ext_mbtowc_j5 count ret state1 state2 state3 state4 pwc ibo)
            else
             if (state2 =? 3) then
              bind (isoir165_mbtowc s 2%nat) (fun '(ret, o) =>
              let pwc := oset pwc o in
              iso2022_cn_ext_mbtowc_j5 count ret state1 state2 state3 state4 pwc ibo)
             else
              Abort
         else
          let state := (Z.lor (Z.lor (Z.lor (Z.shiftl state4 0x18) (Z.shiftl state3 0x10)) (Z.shiftl state2 8)) state1) in
          let ist := state in
          ck (2 * count) (fun k62 =>
          Ok (((-1) - k62), pwc, ist, ibo)))
        else
         let state := (Z.lor (Z.lor (Z.lor (Z.shiftl state4 0x18) (Z.shiftl state3 0x10)) (Z.shiftl state2 8)) state1) in
         let ist := state in
         ck (2 * count) (fun k63 =>
         Ok (((-1) - k63), pwc, ist, ibo))))
      else
       Abort)
  end
with iso2022_cn_ext_mbtowc_j (fuel : nat) (count : Z) (state1 : Z) (state2 : Z) (state3 : Z) (state4 : Z) (x2 : Z) (x3 : Z) (s : list Z) (n : nat) (pwc : option Z) (ibo : Z) {struct fuel} : res (Z * option Z * Z * Z) :=
  match fuel with O => NoFuel | S fuel =>
  if (x3 =? 0x2a) then
   rd s 3%nat (fun x8 =>
   if (x8 =? 0x48) then
    let state3 := 1 in
    let s := skipn 4%nat s in
    ck (count + 4) (fun k64 =>
    let count := k64 in
    ck (count + 1) (fun k65 =>
    if (Nat.ltb n (Z.to_nat k65)) then
     let state := (Z.lor (Z.lor (Z.lor (Z.shiftl state4 0x18) (Z.shiftl state3 0x10)) (Z.shiftl state2 8)) state1) in
     let ist := state in
     ck (2 * count) (fun k66 =>
     ck ((-2) - k66) (fun k67 =>
     Ok (k67, pwc, ist, ibo)))
    else
     iso2022_cn_ext_mbtowc_loop fuel count state1 state2 state3 state4 s n pwc ibo))
   else
    iso2022_cn_ext_mbtowc_j2 fuel count state1 state2 state3 state4 x2 x3 s n pwc ibo)
  else
   iso2022_cn_ext_mbtowc_j2 fuel count state1 state2 state3 state4 x2 x3 s n pwc ibo
  end
with iso2022_cn_ext_mbtowc_j2 (fuel : nat) (count : Z) (state1 : Z) (state2 : Z) (state3 : Z) (state4 : Z) (x2 : Z) (x3 : Z) (s : list Z) (n : nat) (pwc : option Z) (ibo : Z) {struct fuel} : res (Z * option Z * Z * Z) :=
  match fuel with O => NoFuel | S fuel =>
  if (x3 =? 0x2b) then
   rd s 3%nat (fun x10 =>
   if (x10 =? 0x49) then
    let state4 := 1 in
    let s := skipn 4%nat s in
    ck (count + 4) (fun k68 =>
    let count := k68 in
    ck (count + 1) (fun k69 =>
    if (Nat.ltb n (Z.to_nat k69)) then
     let state := (Z.lor (Z.lor (Z.lor (Z.shiftl state4 0x18) (Z.shiftl state3 0x10)) (Z.shiftl state2 8)) state1) in
     let ist := state in
     ck (2 * count) (fun k70 =>
     ck ((-2) - k70) (fun k71 =>
     Ok (k71, pwc, ist, ibo)))
    else
     iso2022_cn_ext_mbtowc_loop fuel count state1 state2 state3 state4 s n pwc ibo))
   else
    if (x10 =? 0x4a) then
     let state4 := 2 in
     let s := skipn 4%nat s in
     ck (count + 4) (fun k72 =>
     let count := k72 in
     ck (count + 1) (fun k73 =>
     if (Nat.ltb n (Z.to_nat k73)) then
      let state := (Z.lor (Z.lor (Z.lor (Z.shiftl state4 0x18) (Z.shiftl state3 0x10)) (Z.shiftl state2 8)) state1) in
      let ist := state in
      ck (2 * count) (fun k74 =>
      ck ((-2) - k74) (fun k75 =>
      Ok (k75, pwc, ist, ibo)))
     else
      iso2022_cn_ext_mbtowc_loop fuel count state1 state2 state3 state4 s n pwc ibo))
    else
     if (x10 =? 0x4b) then
      let state4 := 3 in
      let s := skipn 4%nat s in
      ck (count + 4) (fun k76 =>
      let count := k76 in
      ck (count + 1) (fun k77 =>
      if (Nat.ltb n (Z.to_nat k77)) then
       let state := (Z.lor (Z.lor (Z.lor (Z.shiftl state4 0x18) (Z.shiftl state3 0x10)) (Z.shiftl state2 8)) state1) in
       let ist := state in
       ck (2 * count) (fun k78 =>
       ck ((-2) - k78) (fun k79 =>
       Ok (k79, pwc, ist, ibo)))
      else
       iso2022_cn_ext_mbtowc_loop fuel count state1 state2 state3 state4 s n pwc ibo))
     else
      if (x10 =? 0x4c) then
       let state4 := 4 in
       let s := skipn 4%nat s in
       ck (count + 4) (fun k80 =>
       let count := k80 in
       ck (count + 1) (fun k81 =>
       if (Nat.ltb n (Z.to_nat k81)) then
        let state := (Z.lor (Z.lor (Z.lor (Z.shiftl state4 0x18) (Z.shiftl state3 0x10)) (Z.shiftl state2 8)) state1) in
        let ist := state in
        ck (2 * count) (fun k82 =>
        ck ((-2) - k82) (fun k83 =>
        Ok (k83, pwc, ist, ibo)))
       else
        iso2022_cn_ext_mbtowc_loop fuel count state1 state2 state3 state4 s n pwc ibo))
      else
       if (x10 =? 0x4d) then
        let state4 := 5 in
        let s := skipn 4%nat s in
        ck (count + 4) (fun k84 =>
        let count := k84 in
        ck (count + 1) (fun k85 =>
        if (Nat.ltb n (Z.to_nat k85)) then
         let state := (Z.lor (Z.lor (Z.lor (Z.shiftl state4 0x18) (Z.shiftl state3 0x10)) (Z.shiftl state2 8)) state1) in
         let ist := state in
         ck (2 * count) (fun k86 =>
         ck ((-2) - k86) (fun k87 =>
         Ok (k87, pwc, ist, ibo)))
        else
         iso2022_cn_ext_mbtowc_loop fuel count state1 state2 state3 state4 s n pwc ibo))
       else
        iso2022_cn_ext_mbtowc_j3 count state1 state2 state3 state4 x2 s pwc ibo)
  else
   iso2022_cn_ext_mbtowc_j3 count state1 state2 state3 state4 x2 s pwc ibo
  end.
(* lib/converters/iso2022_cnext.h:80-382 iso2022_cn_ext_mbtowc *)
Definition iso2022_cn_ext_mbtowc (s : list Z) (n : nat) (ist : Z) (ibo : Z) : res (Z * option Z * Z * Z) :=
  let pwc := (None : option Z) in
  let state := ist in
  let state1 := (Z.land state 0xff) in
  let state2 := (Z.land (Z.shiftr state 8) 0xff) in
  let state3 := (Z.land (Z.shiftr state 0x10) 0xff) in
  let state4 := (Z.shiftr state 0x18) in
  let count := 0 in
  iso2022_cn_ext_mbtowc_loop (8 + 4 * n)%nat count state1 state2 state3 state4 s n pwc ibo.

(* lib/converters/iso2022_cnext.h:384-672 iso2022_cn_ext_wctomb *)
Definition iso2022_cn_ext_wctomb_j (count : Z) (state1 : Z) (state2 : Z) (state3 : Z) (state4 : Z) (wc : Z) (x2 : Z) (ro : nat) (r : wlog) : res (Z * wlog * Z) :=
  let r := wr r ro x2 in
  if ((wc =? 0xa) ||| (wc =? 0xd)) then
   let state2 := 0 in
   let state3 := 0 in
   let state4 := 0 in
   let state := (Z.lor (Z.lor (Z.lor (Z.shiftl state4 0x18) (Z.shiftl state3 0x10)) (Z.shiftl state2 8)) state1) in
   let ost := state in
   Ok (count, r, ost)
  else
   let state := (Z.lor (Z.lor (Z.lor (Z.shiftl state4 0x18) (Z.shiftl state3 0x10)) (Z.shiftl state2 8)) state1) in
   let ost := state in
   Ok (count, r, ost).
(* lib/converters/iso2022_cnext.h:384-672 iso2022_cn_ext_wctomb *)
Definition iso2022_cn_ext_wctomb_j4 (count : Z) (state1 : Z) (state2 : Z) (state3 : Z) (state4 : Z) (x5 : Z) (x6 : Z) (ro : nat) (r : wlog) : res (Z * wlog * Z) :=
  let r := wr r ro x5 in
  let r := wr r (Nat.add ro 1%nat) x6 in
  let state := (Z.lor (Z.lor (Z.lor (Z.shiftl state4 0x18) (Z.shiftl state3 0x10)) (Z.shiftl state2 8)) state1) in
  let ost := state in
  Ok (count, r, ost).
(* lib/converters/iso2022_cnext.h:384-672 iso2022_cn_ext_wctomb *)
Definition iso2022_cn_ext_wctomb_j3 (count : Z) (state1 : Z) (state2 : Z) (state3 : Z) (state4 : Z) (x5 : Z) (x6 : Z) (ro : nat) (r : wlog) : res (Z * wlog * Z) :=
  if (negb (state1 =? 1)) then
   let r := wr r ro 0xe in
   let ro := (Nat.add ro 1%nat) in
   let state1 := 1 in
   iso2022_cn_ext_wctomb_j4 count state1 state2 state3 state4 x5 x6 ro r
  else
   iso2022_cn_ext_wctomb_j4 count state1 state2 state3 state4 x5 x6 ro r.
(* lib/converters/iso2022_cnext.h:384-672 iso2022_cn_ext_wctomb *)
Definition iso2022_cn_ext_wctomb_j8 (count : Z) (state1 : Z) (state2 : Z) (state3 : Z) (state4 : Z) (x11 : Z) (x12 : Z) (ro : nat) (r : wlog) : res (Z * wlog * Z) :=
  let r := wr r ro x11 in
  let r := wr r (Nat.add ro 1%nat) x12 in
  let state := (Z.lor (Z.lor (Z.lor (Z.shiftl state4 0x18) (Z.shiftl state3 0x10)) (Z.shiftl state2 8)) state1) in
  let ost := state in
  Ok (count, r, ost).
(* lib/converters/iso2022_cnext.h:384-672 iso2022_cn_ext_wctomb *)
Definition iso2022_cn_ext_wctomb_j7 (count : Z) (state1 : Z) (state2 : Z) (state3 : Z) (state4 : Z) (x11 : Z) (x12 : Z) (ro : nat) (r : wlog) : res (Z * wlog * Z) :=
  if (negb (state1 =? 1)) then
   let r := wr r ro 0xe in
   let ro := (Nat.add ro 1%nat) in
   let state1 := 1 in
   iso2022_cn_ext_wctomb_j8 count state1 state2 state3 state4 x11 x12 ro r
  else
   iso2022_cn_ext_wctomb_j8 count state1 state2 state3 state4 x11 x12 ro r.
(* lib/converters/iso2022_cnext.h:384-672 iso2022_cn_ext_wctomb *)
Definition iso2022_cn_ext_wctomb_j10 (count : Z) (state1 : Z) (state2 : Z) (state3 : Z) (state4 : Z) (x16 : Z) (x17 : Z) (ro : nat) (r : wlog) : res (Z * wlog * Z) :=
  let r := wr r ro 0x1b in
  let r := wr r (Nat.add ro 1%nat) 0x4e in
  let r := wr r (Nat.add ro 2%nat) x16 in
  let r := wr r (Nat.add ro 3%nat) x17 in
  let state := (Z.lor (Z.lor (Z.lor (Z.shiftl state4 0x18) (Z.shiftl state3 0x10)) (Z.shiftl state2 8)) state1) in
  let ost := state in
  Ok (count, r, ost).
(* lib/converters/iso2022_cnext.h:384-672 iso2022_cn_ext_wctomb *)
Definition iso2022_cn_ext_wctomb_j12 (count : Z) (state1 : Z) (state2 : Z) (state3 : Z) (state4 : Z) (x21 : Z) (x22 : Z) (ro : nat) (r : wlog) : res (Z * wlog * Z) :=
  let r := wr r ro 0x1b in
  let r := wr r (Nat.add ro 1%nat) 0x4f in
  let r := wr r (Nat.add ro 2%nat) x21 in
  let r := wr r (Nat.add ro 3%nat) x22 in
  let state := (Z.lor (Z.lor (Z.lor (Z.shiftl state4 0x18) (Z.shiftl state3 0x10)) (Z.shiftl state2 8)) state1) in
  let ost := state in
  Ok (count, r, ost).
(* lib/converters/iso2022_cnext.h:384-672 iso2022_cn_ext_wctomb *)
Definition iso2022_cn_ext_wctomb_j14 (count : Z) (state1 : Z) (state2 : Z) (state3 : Z) (state4 : Z) (x26 : Z) (x27 : Z) (ro : nat) (r : wlog) : res (Z * wlog * Z) :=
  let r := wr r ro 0x1b in
  let r := wr r (Nat.add ro 1%nat) 0x4f in
  let r := wr r (Nat.add ro 2%nat) x26 in
  let r := wr r (Nat.add ro 3%nat) x27 in
  let state := (Z.lor (Z.lor (Z.lor (Z.shiftl state4 0x18) (Z.shiftl state3 0x10)) (Z.shiftl state2 8)) state1) in
  let ost := state in
  Ok (count, r, ost).
(* lib/converters/iso2022_cnext.h:384-672 iso2022_cn_ext_wctomb *)
Definition iso2022_cn_ext_wctomb_j16 (count : Z) (state1 : Z) (state2 : Z) (state3 : Z) (state4 : Z) (x31 : Z) (x32 : Z) (ro : nat) (r : wlog) : res (Z * wlog * Z) :=
  let r := wr r ro 0x1b in
  let r := wr r (Nat.add ro 1%nat) 0x4f in
  let r := wr r (Nat.add ro 2%nat) x31 in
  let r := wr r (Nat.add ro 3%nat) x32 in
  let state := (Z.lor (Z.lor (Z.lor (Z.shiftl state4 0x18) (Z.shiftl state3 0x10)) (Z.shiftl state2 8)) state1) in
  let ost := state in
  Ok (count, r, ost).
(* lib/converters/iso2022_cnext.h:384-672 iso2022_cn_ext_wctomb *)
Definition iso2022_cn_ext_wctomb_j18 (count : Z) (state1 : Z) (state2 : Z) (state3 : Z) (state4 : Z) (x36 : Z) (x37 : Z) (ro : nat) (r : wlog) : res (Z * wlog * Z) :=
  let r := wr r ro 0x1b in
  let r := wr r (Nat.add ro 1%nat) 0x4f in
  let r := wr r (Nat.add ro 2%nat) x36 in
  let r := wr r (Nat.add ro 3%nat) x37 in
  let state := (Z.lor (Z.lor (Z.lor (Z.shiftl state4 0x18) (Z.shiftl state3 0x10)) (Z.shiftl state2 8)) state1) in
  let ost := state in
  Ok (count, r, ost).
(* lib/converters/iso2022_cnext.h:384-672 iso2022_cn_ext_wctomb *)
Definition iso2022_cn_ext_wctomb_j19 (count : Z) (state1 : Z) (state2 : Z) (state3 : Z) (state4 : Z) (x41 : Z) (x42 : Z) (ro : nat) (r : wlog) : res (Z * wlog * Z) :=
  let r := wr r ro 0x1b in
  let r := wr r (Nat.add ro 1%nat) 0x4f in
  let r := wr r (Nat.add ro 2%nat) x41 in
  let r := wr r (Nat.add ro 3%nat) x42 in
  let state := (Z.lor (Z.lor (Z.lor (Z.shiftl state4 0x18) (Z.shiftl state3 0x10)) (Z.shiftl state2 8)) state1) in
  let ost := state in
  Ok (count, r, ost).
(* lib/converters/iso2022_cnext.h:384-672 iso2022_cn_ext_wctomb *)
Definition iso2022_cn_ext_wctomb_j22 (count : Z) (state1 : Z) (state2 : Z) (state3 : Z) (state4 : Z) (x46 : Z) (x47 : Z) (ro : nat) (r : wlog) : res (Z * wlog * Z) :=
  let r := wr r ro x46 in
  let r := wr r (Nat.add ro 1%nat) x47 in
  let state := (Z.lor (Z.lor (Z.lor (Z.shiftl state4 0x18) (Z.shiftl state3 0x10)) (Z.shiftl state2 8)) state1) in
  let ost := state in
  Ok (count, r, ost).
(* lib/converters/iso2022_cnext.h:384-672 iso2022_cn_ext_wctomb *)
Definition iso2022_cn_ext_wctomb_j21 (count : Z) (state1 : Z) (state2 : Z) (state3 : Z) (state4 : Z) (x46 : Z) (x47 : Z) (ro : nat) (r : wlog) : res (Z * wlog * Z) :=
  if (negb (state1 =? 1)) then
   let r := wr r ro 0xe in
   let ro := (Nat.add ro 1%nat) in
   let state1 := 1 in
   iso2022_cn_ext_wctomb_j22 count state1 state2 state3 state4 x46 x47 ro r
  else
   iso2022_cn_ext_wctomb_j22 count state1 state2 state3 state4 x46 x47 ro r.
(* lib/converters/iso2022_cnext.h:384-672 iso2022_cn_ext_wctomb *)
Definition iso2022_cn_ext_wctomb_j20 (buf : wlog) (state1 : Z) (state2 : Z) (state3 : Z) (state4 : Z) (wc : Z) (n : nat) (ro : nat) (r : wlog) (ost : Z) : res (Z * wlog * Z) :=
  bind (isoir165_wctomb wc 2%nat) (fun '(ret, l) =>
  lappb 3%nat buf 0%nat l (fun buf =>
  if (negb (ret =? (-1))) then
   if (negb (ret =? 2)) then
    Abort
   else
    lrd buf 0%nat (fun x46 =>
    if (x46 <? 0x80) then
     lrd buf 1%nat (fun x47 =>
     if (x47 <? 0x80) then
      let count := (((if (state2 =? 3) then 0 else 4) + (if (state1 =? 1) then 0 else 1)) + 2) in
      if (Nat.ltb n (Z.to_nat count)) then
       Ok ((-2), r, ost)
      else
       if (negb (state2 =? 3)) then
        let r := wr r ro 0x1b in
        let r := wr r (Nat.add ro 1%nat) 0x24 in
        let r := wr r (Nat.add ro 2%nat) 0x29 in
        let r := wr r (Nat.add ro 3%nat) 0x45 in
        let ro := (Nat.add ro 4%nat) in
        let state2 := 3 in
        iso2022_cn_ext_wctomb_j21 count state1 state2 state3 state4 x46 x47 ro r
       else
        iso2022_cn_ext_wctomb_j21 count state1 state2 state3 state4 x46 x47 ro r
     else
      Ok ((-1), r, ost))
    else
     Ok ((-1), r, ost))
  else
   Ok ((-1), r, ost))).
(* lib/converters/iso2022_cnext.h:384-672 iso2022_cn_ext_wctomb *)
Definition iso2022_cn_ext_wctomb_j17 (buf : wlog) (state1 : Z) (state2 : Z) (state3 : Z) (state4 : Z) (wc : Z) (x10 : Z) (n : nat) (ro : nat) (r : wlog) (ost : Z) : res (Z * wlog * Z) :=
  if (x10 =? 7) then
   lrd buf 1%nat (fun x41 =>
   if (x41 <? 0x80) then
    lrd buf 2%nat (fun x42 =>
    if (x42 <? 0x80) then
     let count := ((if (state4 =? 5) then 0 else 4) + 4) in
     if (Nat.ltb n (Z.to_nat count)) then
      Ok ((-2), r, ost)
     else
      if (negb (state4 =? 5)) then
       let r := wr r ro 0x1b in
       let r := wr r (Nat.add ro 1%nat) 0x24 in
       let r := wr r (Nat.add ro 2%nat) 0x2b in
       let r := wr r (Nat.add ro 3%nat) 0x4d in
       let ro := (Nat.add ro 4%nat) in
       let state4 := 5 in
       iso2022_cn_ext_wctomb_j19 count state1 state2 state3 state4 x41 x42 ro r
      else
       iso2022_cn_ext_wctomb_j19 count state1 state2 state3 state4 x41 x42 ro r
    else
     iso2022_cn_ext_wctomb_j20 buf state1 state2 state3 state4 wc n ro r ost)
   else
    iso2022_cn_ext_wctomb_j20 buf state1 state2 state3 state4 wc n ro r ost)
  else
   iso2022_cn_ext_wctomb_j20 buf state1 state2 state3 state4 wc n ro r ost.
(* lib/converters/iso2022_cnext.h:384-672 iso2022_cn_ext_wctomb *)
Definition iso2022_cn_ext_wctomb_j15 (buf : wlog) (state1 : Z) (state2 : Z) (state3 : Z) (state4 : Z) (wc : Z) (x10 : Z) (n : nat) (ro : nat) (r : wlog) (ost : Z) : res (Z * wlog * Z) :=
  if (x10 =? 6) then
   lrd buf 1%nat (fun x36 =>
   if (x36 <? 0x80) then
    lrd buf 2%nat (fun x37 =>
    if (x37 <? 0x80) then
     let count := ((if (state4 =? 4) then 0 else 4) + 4) in
     if (Nat.ltb n (Z.to_nat count)) then
      Ok ((-2), r, ost)
     else
      if (negb (state4 =? 4)) then
       let r := wr r ro 0x1b in
       let r := wr r (Nat.add ro 1%nat) 0x24 in
       let r := wr r (Nat.add ro 2%nat) 0x2b in
       let r := wr r (Nat.add ro 3%nat) 0x4c in
       let ro := (Nat.add ro 4%nat) in
       let state4 := 4 in
       iso2022_cn_ext_wctomb_j18 count state1 state2 state3 state4 x36 x37 ro r
      else
       iso2022_cn_ext_wctomb_j18 count state1 state2 state3 state4 x36 x37 ro r
    else
     iso2022_cn_ext_wctomb_j17 buf state1 state2 state3 state4 wc x10 n ro r ost)
   else
    iso2022_cn_ext_wctomb_j17 buf state1 state2 state3 state4 wc x10 n ro r ost)
  else
   iso2022_cn_ext_wctomb_j17 buf state1 state2 state3 state4 wc x10 n ro r ost.
(* lib/converters/iso2022_cnext.h:384-672 iso2022_cn_ext_wctomb *)
Definition iso2022_cn_ext_wctomb_j13 (buf : wlog) (state1 : Z) (state2 : Z) (state3 : Z) (state4 : Z) (wc : Z) (x10 : Z) (n : nat) (ro : nat) (r : wlog) (ost : Z) : res (Z * wlog * Z) :=
  if (x10 =? 5) then
   lrd buf 1%nat (fun x31 =>
   if (x31 <? 0x80) then
    lrd buf 2%nat (fun x32 =>
    if (x32 <? 0x80) then
     let count := ((if (state4 =? 3) then 0 else 4) + 4) in
     if (Nat.ltb n (Z.to_nat count)) then
      Ok ((-2), r, ost)
     else
      if (negb (state4 =? 3)) then
       let r := wr r ro 0x1b in
       let r := wr r (Nat.add ro 1%nat) 0x24 in
       let r := wr r (Nat.add ro 2%nat) 0x2b in
       let r := wr r (Nat.add ro 3%nat) 0x4b in
       let ro := (Nat.add ro 4%nat) in
       let state4 := 3 in
       iso2022_cn_ext_wctomb_j16 count state1 state2 state3 state4 x31 x32 ro r
      else
       iso2022_cn_ext_wctomb_j16 count state1 state2 state3 state4 x31 x32 ro r
    else
     iso2022_cn_ext_wctomb_j15 buf state1 state2 state3 state4 wc x10 n ro r ost)
   else
    iso2022_cn_ext_wctomb_j15 buf state1 state2 state3 state4 wc x10 n ro r ost)
  else
   iso2022_cn_ext_wctomb_j15 buf state1 state2 state3 state4 wc x10 n ro r ost.
(* lib/converters/iso2022_cnext.h:384-672 iso2022_cn_ext_wctomb *)
Definition iso2022_cn_ext_wctomb_j11 (buf : wlog) (state1 : Z) (state2 : Z) (state3 : Z) (state4 : Z) (wc : Z) (x10 : Z) (n : nat) (ro : nat) (r : wlog) (ost : Z) : res (Z * wlog * Z) :=
  if (x10 =? 4) then
   lrd buf 1%nat (fun x26 =>
   if (x26 <? 0x80) then
    lrd buf 2%nat (fun x27 =>
    if (x27 <? 0x80) then
     let count := ((if (state4 =? 2) then 0 else 4) + 4) in
     if (Nat.ltb n (Z.to_nat count)) then
      Ok ((-2), r, ost)
     else
      if (negb (state4 =? 2)) then
       let r := wr r ro 0x1b in
       let r := wr r (Nat.add ro 1%nat) 0x24 in
       let r := wr r (Nat.add ro 2%nat) 0x2b in
       let r := wr r (Nat.add ro 3%nat) 0x4a in
       let ro := (Nat.add ro 4%nat) in
       let state4 := 2 in
       iso2022_cn_ext_wctomb_j14 count state1 state2 state3 state4 x26 x27 ro r
      else
       iso2022_cn_ext_wctomb_j14 count state1 state2 state3 state4 x26 x27 ro r
    else
     iso2022_cn_ext_wctomb_j13 buf state1 state2 state3 state4 wc x10 n ro r ost)
   else
    iso2022_cn_ext_wctomb_j13 buf state1 state2 state3 state4 wc x10 n ro r ost)
  else
   iso2022_cn_ext_wctomb_j13 buf state1 state2 state3 state4 wc x10 n ro r ost.
(* lib/converters/iso2022_cnext.h:384-672 iso2022_cn_ext_wctomb *)
Definition iso2022_cn_ext_wctomb_j9 (buf : wlog) (state1 : Z) (state2 : Z) (state3 : Z) (state4 : Z) (wc : Z) (x10 : Z) (n : nat) (ro : nat) (r : wlog) (ost : Z) : res (Z * wlog * Z) :=
  if (x10 =? 3) then
   lrd buf 1%nat (fun x21 =>
   if (x21 <? 0x80) then
    lrd buf 2%nat (fun x22 =>
    if (x22 <? 0x80) then
     let count := ((if (state4 =? 1) then 0 else 4) + 4) in
     if (Nat.ltb n (Z.to_nat count)) then
      Ok ((-2), r, ost)
     else
      if (negb (state4 =? 1)) then
       let r := wr r ro 0x1b in
       let r := wr r (Nat.add ro 1%nat) 0x24 in
       let r := wr r (Nat.add ro 2%nat) 0x2b in
       let r := wr r (Nat.add ro 3%nat) 0x49 in
       let ro := (Nat.add ro 4%nat) in
       let state4 := 1 in
       iso2022_cn_ext_wctomb_j12 count state1 state2 state3 state4 x21 x22 ro r
      else
       iso2022_cn_ext_wctomb_j12 count state1 state2 state3 state4 x21 x22 ro r
    else
     iso2022_cn_ext_wctomb_j11 buf state1 state2 state3 state4 wc x10 n ro r ost)
   else
    iso2022_cn_ext_wctomb_j11 buf state1 state2 state3 state4 wc x10 n ro r ost)
  else
   iso2022_cn_ext_wctomb_j11 buf state1 state2 state3 state4 wc x10 n ro r ost.
(* lib/converters/iso2022_cnext.h:384-672 iso2022_cn_ext_wctomb *)
Definition iso2022_cn_ext_wctomb_j6 (buf : wlog) (state1 : Z) (state2 : Z) (state3 : Z) (state4 : Z) (wc : Z) (x10 : Z) (n : nat) (ro : nat) (r : wlog) (ost : Z) : res (Z * wlog * Z) :=
  if (x10 =? 2) then
   lrd buf 1%nat (fun x16 =>
   if (x16 <? 0x80) then
    lrd buf 2%nat (fun x17 =>
    if (x17 <? 0x80) then
     let count := ((if (state3 =? 1) then 0 else 4) + 4) in
     if (Nat.ltb n (Z.to_nat count)) then
      Ok ((-2), r, ost)
     else
      if (negb (state3 =? 1)) then
       let r := wr r ro 0x1b in
       let r := wr r (Nat.add ro 1%nat) 0x24 in
       let r := wr r (Nat.add ro 2%nat) 0x2a in
       let r := wr r (Nat.add ro 3%nat) 0x48 in
       let ro := (Nat.add ro 4%nat) in
       let state3 := 1 in
       iso2022_cn_ext_wctomb_j10 count state1 state2 state3 state4 x16 x17 ro r
      else
       iso2022_cn_ext_wctomb_j10 count state1 state2 state3 state4 x16 x17 ro r
    else
     iso2022_cn_ext_wctomb_j9 buf state1 state2 state3 state4 wc x10 n ro r ost)
   else
    iso2022_cn_ext_wctomb_j9 buf state1 state2 state3 state4 wc x10 n ro r ost)
  else
   iso2022_cn_ext_wctomb_j9 buf state1 state2 state3 state4 wc x10 n ro r ost.
(* lib/converters/iso2022_cnext.h:384-672 iso2022_cn_ext_wctomb *)
Definition iso2022_cn_ext_wctomb_j5 (buf : wlog) (state1 : Z) (state2 : Z) (state3 : Z) (state4 : Z) (wc : Z) (n : nat) (ro : nat) (r : wlog) (ost : Z) : res (Z * wlog * Z) :=
  bind (cns11643_inv_wctomb wc 3%nat) (fun '(ret, l) =>
  lappb 3%nat buf 0%nat l (fun buf =>
  if (negb (ret =? (-1))) then
   if (negb (ret =? 3)) then
    Abort
   else
    lrd buf 0%nat (fun x10 =>
    if (x10 =? 1) then
     lrd buf 1%nat (fun x11 =>
     if (x11 <? 0x80) then
      lrd buf 2%nat (fun x12 =>
      if (x12 <? 0x80) then
       let count := (((if (state2 =? 2) then 0 else 4) + (if (state1 =? 1) then 0 else 1)) + 2) in
       if (Nat.ltb n (Z.to_nat count)) then
        Ok ((-2), r, ost)
       else
        if (negb (state2 =? 2)) then
         let r := wr r ro 0x1b in
         let r := wr r (Nat.add ro 1%nat) 0x24 in
         let r := wr r (Nat.add ro 2%nat) 0x29 in
         let r := wr r (Nat.add ro 3%nat) 0x47 in
         let ro := (Nat.add ro 4%nat) in
         let state2 := 2 in
         iso2022_cn_ext_wctomb_j7 count state1 state2 state3 state4 x11 x12 ro r
        else
         iso2022_cn_ext_wctomb_j7 count state1 state2 state3 state4 x11 x12 ro r
      else
       iso2022_cn_ext_wctomb_j6 buf state1 state2 state3 state4 wc x10 n ro r ost)
     else
      iso2022_cn_ext_wctomb_j6 buf state1 state2 state3 state4 wc x10 n ro r ost)
    else
     iso2022_cn_ext_wctomb_j6 buf state1 state2 state3 state4 wc x10 n ro r ost)
  else
   iso2022_cn_ext_wctomb_j20 buf state1 state2 state3 state4 wc n ro r ost)).
(* lib/converters/iso2022_cnext.h:384-672 iso2022_cn_ext_wctomb *)
Definition iso2022_cn_ext_wctomb_j2 (buf : wlog) (state1 : Z) (state2 : Z) (state3 : Z) (state4 : Z) (wc : Z) (n : nat) (ro : nat) (r : wlog) (ost : Z) : res (Z * wlog * Z) :=
  bind (gb2312_wctomb wc 2%nat) (fun '(ret, l) =>
  lappb 3%nat buf 0%nat l (fun buf =>
  if (negb (ret =? (-1))) then
   if (negb (ret =? 2)) then
    Abort
   else
    lrd buf 0%nat (fun x5 =>
    if (x5 <? 0x80) then
     lrd buf 1%nat (fun x6 =>
     if (x6 <? 0x80) then
      let count := (((if (state2 =? 1) then 0 else 4) + (if (state1 =? 1) then 0 else 1)) + 2) in
      if (Nat.ltb n (Z.to_nat count)) then
       Ok ((-2), r, ost)
      else
       if (negb (state2 =? 1)) then
        let r := wr r ro 0x1b in
        let r := wr r (Nat.add ro 1%nat) 0x24 in
        let r := wr r (Nat.add ro 2%nat) 0x29 in
        let r := wr r (Nat.add ro 3%nat) 0x41 in
        let ro := (Nat.add ro 4%nat) in
        let state2 := 1 in
        iso2022_cn_ext_wctomb_j3 count state1 state2 state3 state4 x5 x6 ro r
       else
        iso2022_cn_ext_wctomb_j3 count state1 state2 state3 state4 x5 x6 ro r
     else
      iso2022_cn_ext_wctomb_j5 buf state1 state2 state3 state4 wc n ro r ost)
    else
     iso2022_cn_ext_wctomb_j5 buf state1 state2 state3 state4 wc n ro r ost)
  else
   iso2022_cn_ext_wctomb_j5 buf state1 state2 state3 state4 wc n ro r ost)).
(* lib/converters/iso2022_cnext.h:384-672 iso2022_cn_ext_wctomb *)
Definition iso2022_cn_ext_wctomb (wc : Z) (n : nat) (ost : Z) : res (Z * wlog * Z) :=
  let r := ([] : wlog) in
  let ro := 0%nat in
  let state := ost in
  let state1 := (Z.land state 0xff) in
  let state2 := (Z.land (Z.shiftr state 8) 0xff) in
  let state3 := (Z.land (Z.shiftr state 0x10) 0xff) in
  let state4 := (Z.shiftr state 0x18) in
  let buf := ([] : wlog) in
  bind (ascii_wctomb wc 1%nat) (fun '(ret, l) =>
  lappb 3%nat buf 0%nat l (fun buf =>
  if (negb (ret =? (-1))) then
   if (negb (ret =? 1)) then
    Abort
   else
    lrd buf 0%nat (fun x2 =>
    if (x2 <? 0x80) then
     let count := (if (state1 =? 0) then 1 else 2) in
     if (Nat.ltb n (Z.to_nat count)) then
      Ok ((-2), r, ost)
     else
      if (negb (state1 =? 0)) then
       let r := wr r ro 0xf in
       let ro := (Nat.add ro 1%nat) in
       let state1 := 0 in
       iso2022_cn_ext_wctomb_j count state1 state2 state3 state4 wc x2 ro r
      else
       iso2022_cn_ext_wctomb_j count state1 state2 state3 state4 wc x2 ro r
    else
     iso2022_cn_ext_wctomb_j2 buf state1 state2 state3 state4 wc n ro r ost)
  else
   iso2022_cn_ext_wctomb_j2 buf state1 state2 state3 state4 wc n ro r ost)).

(* lib/converters/iso2022_cnext.h:674-691 iso2022_cn_ext_reset *)
Definition iso2022_cn_ext_reset (n : nat) (ost : Z) : res (Z * wlog * Z) :=
  let r := ([] : wlog) in
  let state := ost in
  let state1 := (Z.land state 0xff) in
  let state2 := (Z.land (Z.shiftr state 8) 0xff) in
  let state3 := (Z.land (Z.shiftr state 0x10) 0xff) in
  let state4 := (Z.shiftr state 0x18) in
  if (negb (state1 =? 0)) then
   if (Nat.ltb n 1%nat) then
    Ok ((-2), r, ost)
   else
    let r := wr r 0%nat 0xf in
    Ok (1, r, ost)
  else
   Ok (0, r, ost).

(* lib/converters/iso2022_kr.h:59-162 iso2022_kr_mbtowc *)
Fixpoint iso2022_kr_mbtowc_loop (fuel : nat) (count : Z) (state1 : Z) (state2 : Z) (s : list Z) (n : nat) (pwc : option Z) (ibo : Z) {struct fuel} : res (Z * option Z * Z * Z) :=
  match fuel with O => NoFuel | S fuel =>
  rd s 0%nat (fun c =>
  if (c =? 0x1b) then
   ck (count + 4) (fun k1 =>
   if (Nat.ltb n (Z.to_nat k1)) then
    let state := (Z.lor (Z.shiftl state2 8) state1) in
    let ist := state in
    ck (2 * count) (fun k2 =>
    ck ((-2) - k2) (fun k3 =>
    Ok (k3, pwc, ist, ibo)))
   else
    rd s 1%nat (fun x2 =>
    if (x2 =? 0x24) then
     rd s 2%nat (fun x3 =>
     if (x3 =? 0x29) then
      rd s 3%nat (fun x4 =>
      if (x4 =? 0x43) then
       let state2 := 1 in
       let s := skipn 4%nat s in
       ck (count + 4) (fun k4 =>
       let count := k4 in
       ck (count + 1) (fun k5 =>
       if (Nat.ltb n (Z.to_nat k5)) then
        let state := (Z.lor (Z.shiftl state2 8) state1) in
        let ist := state in
        ck (2 * count) (fun k6 =>
        ck ((-2) - k6) (fun k7 =>
        Ok (k7, pwc, ist, ibo)))
       else
        iso2022_kr_mbtowc_loop fuel count state1 state2 s n pwc ibo))
      else
       let state := (Z.lor (Z.shiftl state2 8) state1) in
       let ist := state in
       ck (2 * count) (fun k8 =>
       Ok (((-1) - k8), pwc, ist, ibo)))
     else
      let state := (Z.lor (Z.shiftl state2 8) state1) in
      let ist := state in
      ck (2 * count) (fun k9 =>
      Ok (((-1) - k9), pwc, ist, ibo)))
    else
     let state := (Z.lor (Z.shiftl state2 8) state1) in
     let ist := state in
     ck (2 * count) (fun k10 =>
     Ok (((-1) - k10), pwc, ist, ibo))))
  else
   if (c =? 0xe) then
    if (negb (state2 =? 1)) then
     let state := (Z.lor (Z.shiftl state2 8) state1) in
     let ist := state in
     ck (2 * count) (fun k11 =>
     Ok (((-1) - k11), pwc, ist, ibo))
    else
     let state1 := 1 in
     let s := skipn 1%nat s in
     ck (count + 1) (fun k12 =>
     let count := k12 in
     ck (count + 1) (fun k13 =>
     if (Nat.ltb n (Z.to_nat k13)) then
      let state := (Z.lor (Z.shiftl state2 8) state1) in
      let ist := state in
      ck (2 * count) (fun k14 =>
      ck ((-2) - k14) (fun k15 =>
      Ok (k15, pwc, ist, ibo)))
     else
      iso2022_kr_mbtowc_loop fuel count state1 state2 s n pwc ibo))
   else
    if (c =? 0xf) then
     let state1 := 0 in
     let s := skipn 1%nat s in
     ck (count + 1) (fun k16 =>
     let count := k16 in
     ck (count + 1) (fun k17 =>
     if (Nat.ltb n (Z.to_nat k17)) then
      let state := (Z.lor (Z.shiftl state2 8) state1) in
      let ist := state in
      ck (2 * count) (fun k18 =>
      ck ((-2) - k18) (fun k19 =>
      Ok (k19, pwc, ist, ibo)))
     else
      iso2022_kr_mbtowc_loop fuel count state1 state2 s n pwc ibo))
    else
     if (state1 =? 0) then
      if (c <? 0x80) then
       bind (ascii_mbtowc s 1%nat) (fun '(ret, o) =>
       let pwc := oset pwc o in
       if (ret =? (-1)) then
        let state := (Z.lor (Z.shiftl state2 8) state1) in
        let ist := state in
        ck (2 * count) (fun k20 =>
        Ok (((-1) - k20), pwc, ist, ibo))
       else
        if (negb (ret =? 1)) then
         Abort
        else
         let state := (Z.lor (Z.shiftl state2 8) state1) in
         let ist := state in
         ck (count + 1) (fun k21 =>
         Ok (k21, pwc, ist, ibo)))
      else
       let state := (Z.lor (Z.shiftl state2 8) state1) in
       let ist := state in
       ck (2 * count) (fun k22 =>
       Ok (((-1) - k22), pwc, ist, ibo))
     else
      if (state1 =? 1) then
       ck (count + 2) (fun k23 =>
       if (Nat.ltb n (Z.to_nat k23)) then
        let state := (Z.lor (Z.shiftl state2 8) state1) in
        let ist := state in
        ck (2 * count) (fun k24 =>
        ck ((-2) - k24) (fun k25 =>
        Ok (k25, pwc, ist, ibo)))
       else
        if (negb (state2 =? 1)) then
         Abort
        else
         rd s 0%nat (fun x6 =>
         if (x6 <? 0x80) then
          rd s 1%nat (fun x7 =>
          if (x7 <? 0x80) then
           bind (ksc5601_mbtowc s 2%nat) (fun '(ret, o) =>
           let pwc := oset pwc o in
           if (ret =? (-1)) then
            let state := (Z.lor (Z.shiftl state2 8) state1) in
            let ist := state in
            ck (2 * count) (fun k26 =>
            Ok (((-1) - k26), pwc, ist, ibo))
           else
            if (negb (ret =? 2)) then
             Abort
            else
             let state := (Z.lor (Z.shiftl state2 8) state1) in
             let ist := state in
             ck (count + 2) (fun k27 =>
             Ok (k27, pwc, ist, ibo)))
          else
           let state := (Z.lor (Z.shiftl state2 8) state1) in
           let ist := state in
           ck (2 * count) (fun k28 =>
           Ok (((-1) - k28), pwc, ist, ibo)))
         else
          let state := (Z.lor (Z.shiftl state2 8) state1) in
          let ist := state in
          ck (2 * count) (fun k29 =>
          Ok (((-1) - k29), pwc, ist, ibo))))
      else
       Abort)
  end.
(* lib/converters/iso2022_kr.h:59-162 iso2022_kr_mbtowc *)
Definition iso2022_kr_mbtowc (s : list Z) (n : nat) (ist : Z) (ibo : Z) : res (Z * option Z * Z * Z) :=
  let pwc := (None : option Z) in
  let state := ist in
  let state1 := (Z.land state 0xff) in
  let state2 := (Z.shiftr state 8) in
  let count := 0 in
  iso2022_kr_mbtowc_loop (8 + 4 * n)%nat count state1 state2 s n pwc ibo.

(* lib/converters/iso2022_kr.h:164-232 iso2022_kr_wctomb *)
Definition iso2022_kr_wctomb_j (count : Z) (state1 : Z) (state2 : Z) (wc : Z) (x2 : Z) (ro : nat) (r : wlog) : res (Z * wlog * Z) :=
  let r := wr r ro x2 in
  if ((wc =? 0xa) ||| (wc =? 0xd)) then
   let state2 := 0 in
   let state := (Z.lor (Z.shiftl state2 8) state1) in
   let ost := state in
   Ok (count, r, ost)
  else
   let state := (Z.lor (Z.shiftl state2 8) state1) in
   let ost := state in
   Ok (count, r, ost).
(* lib/converters/iso2022_kr.h:164-232 iso2022_kr_wctomb *)
Definition iso2022_kr_wctomb_j4 (count : Z) (state1 : Z) (state2 : Z) (x5 : Z) (x6 : Z) (ro : nat) (r : wlog) : res (Z * wlog * Z) :=
  let r := wr r ro x5 in
  let r := wr r (Nat.add ro 1%nat) x6 in
  let state := (Z.lor (Z.shiftl state2 8) state1) in
  let ost := state in
  Ok (count, r, ost).
(* lib/converters/iso2022_kr.h:164-232 iso2022_kr_wctomb *)
Definition iso2022_kr_wctomb_j3 (count : Z) (state1 : Z) (state2 : Z) (x5 : Z) (x6 : Z) (ro : nat) (r : wlog) : res (Z * wlog * Z) :=
  if (negb (state1 =? 1)) then
   let r := wr r ro 0xe in
   let ro := (Nat.add ro 1%nat) in
   let state1 := 1 in
   iso2022_kr_wctomb_j4 count state1 state2 x5 x6 ro r
  else
   iso2022_kr_wctomb_j4 count state1 state2 x5 x6 ro r.
(* lib/converters/iso2022_kr.h:164-232 iso2022_kr_wctomb *)
Definition iso2022_kr_wctomb_j2 (buf : wlog) (state1 : Z) (state2 : Z) (wc : Z) (n : nat) (ro : nat) (r : wlog) (ost : Z) : res (Z * wlog * Z) :=
  bind (ksc5601_wctomb wc 2%nat) (fun '(ret, l) =>
  lappb 2%nat buf 0%nat l (fun buf =>
  if (negb (ret =? (-1))) then
   if (negb (ret =? 2)) then
    Abort
   else
    lrd buf 0%nat (fun x5 =>
    if (x5 <? 0x80) then
     lrd buf 1%nat (fun x6 =>
     if (x6 <? 0x80) then
      let count := (((if (state2 =? 1) then 0 else 4) + (if (state1 =? 1) then 0 else 1)) + 2) in
      if (Nat.ltb n (Z.to_nat count)) then
       Ok ((-2), r, ost)
      else
       if (negb (state2 =? 1)) then
        let r := wr r ro 0x1b in
        let r := wr r (Nat.add ro 1%nat) 0x24 in
        let r := wr r (Nat.add ro 2%nat) 0x29 in
        let r := wr r (Nat.add ro 3%nat) 0x43 in
        let ro := (Nat.add ro 4%nat) in
        let state2 := 1 in
        iso2022_kr_wctomb_j3 count state1 state2 x5 x6 ro r
       else
        iso2022_kr_wctomb_j3 count state1 state2 x5 x6 ro r
     else
      Ok ((-1), r, ost))
    else
     Ok ((-1), r, ost))
  else
   Ok ((-1), r, ost))).
(* lib/converters/iso2022_kr.h:164-232 iso2022_kr_wctomb *)
Definition iso2022_kr_wctomb (wc : Z) (n : nat) (ost : Z) : res (Z * wlog * Z) :=
  let r := ([] : wlog) in
  let ro := 0%nat in
  let state := ost in
  let state1 := (Z.land state 0xff) in
  let state2 := (Z.shiftr state 8) in
  let buf := ([] : wlog) in
  bind (ascii_wctomb wc 1%nat) (fun '(ret, l) =>
  lappb 2%nat buf 0%nat l (fun buf =>
  if (negb (ret =? (-1))) then
   if (negb (ret =? 1)) then
    Abort
   else
    lrd buf 0%nat (fun x2 =>
    if (x2 <? 0x80) then
     let count := (if (state1 =? 0) then 1 else 2) in
     if (Nat.ltb n (Z.to_nat count)) then
      Ok ((-2), r, ost)
     else
      if (negb (state1 =? 0)) then
       let r := wr r ro 0xf in
       let ro := (Nat.add ro 1%nat) in
       let state1 := 0 in
       iso2022_kr_wctomb_j count state1 state2 wc x2 ro r
      else
       iso2022_kr_wctomb_j count state1 state2 wc x2 ro r
    else
     iso2022_kr_wctomb_j2 buf state1 state2 wc n ro r ost)
  else
   iso2022_kr_wctomb_j2 buf state1 state2 wc n ro r ost)).

(* lib/converters/iso2022_kr.h:234-249 iso2022_kr_reset *)
Definition iso2022_kr_reset (n : nat) (ost : Z) : res (Z * wlog * Z) :=
  let r := ([] : wlog) in
  let state := ost in
  let state1 := (Z.land state 0xff) in
  let state2 := (Z.shiftr state 8) in
  if (negb (state1 =? 0)) then
   if (Nat.ltb n 1%nat) then
    Ok ((-2), r, ost)
   else
    let r := wr r 0%nat 0xf in
    Ok (1, r, ost)
  else
   Ok (0, r, ost).

(* lib/converters/iso2022_jp3.h:228-264 iso2022_jp3_comp_table_data (flattened, 2 fields per entry) *)
Definition iso2022_jp3_comp_table_data : tab := mk [
 [11108;11109;11104;11110;10588;11076;11064;11080;11063;11082;11056;11084;11075;11086;11064;11081];
 [11063;11083;11056;11085;11075;11087;9259;9335;9261;9336;9263;9337;9265;9338;9267;9339];
 [9515;9591;9517;9592;9519;9593;9521;9594;9523;9595;9531;9596;9540;9597;9544;9598];
 [9845;9848]].

(* lib/converters/iso2022_jp3.h:54-206 iso2022_jp3_mbtowc *)
Definition iso2022_jp3_mbtowc_j3 (count : Z) (state : Z) (s : list Z) (n : nat) (pwc : option Z) (ibo : Z) : res (Z * option Z * Z * Z) :=
  ck (count + 2) (fun k1 =>
  if (Nat.ltb n (Z.to_nat k1)) then
   let ist := state in
   ck (2 * count) (fun k2 =>
   ck ((-2) - k2) (fun k3 =>
   Ok (k3, pwc, ist, ibo)))
  else
   rd s 0%nat (fun x19 =>
   if (x19 <? 0x80) then
    rd s 1%nat (fun x20 =>
    if (x20 <? 0x80) then
     rd s 0%nat (fun x21 =>
     bind (jisx0213_to_ucs4 ((Z.shiftl ((state - 4) + 1) 8) + x21) x20) (fun wc =>
     if (negb (wc =? 0)) then
      if (wc <? 0x80) then
       tget jisx0213_to_ucs_combining (2 * (wc - 1)) (fun x24 =>
       let wc1 := x24 in
       tget jisx0213_to_ucs_combining (2 * (wc - 1) + 1) (fun x25 =>
       let wc2 := x25 in
       let pwc := Some wc1 in
       let ist := (Z.lor (Z.shiftl wc2 3) state) in
       ck (count + 2) (fun k4 =>
       Ok (k4, pwc, ist, ibo))))
      else
       let pwc := Some wc in
       let ist := state in
       ck (count + 2) (fun k5 =>
       Ok (k5, pwc, ist, ibo))
     else
      let ist := state in
      ck (2 * count) (fun k6 =>
      Ok (((-1) - k6), pwc, ist, ibo))))
    else
     let ist := state in
     ck (2 * count) (fun k7 =>
     Ok (((-1) - k7), pwc, ist, ibo)))
   else
    let ist := state in
    ck (2 * count) (fun k8 =>
    Ok (((-1) - k8), pwc, ist, ibo)))).
(* lib/converters/iso2022_jp3.h:54-206 iso2022_jp3_mbtowc *)
Fixpoint iso2022_jp3_mbtowc_loop (fuel : nat) (count : Z) (state : Z) (s : list Z) (n : nat) (pwc : option Z) (ibo : Z) {struct fuel} : res (Z * option Z * Z * Z) :=
  match fuel with O => NoFuel | S fuel =>
  rd s 0%nat (fun c =>
  if (c =? 0x1b) then
   ck (count + 3) (fun k9 =>
   if (Nat.ltb n (Z.to_nat k9)) then
    let ist := state in
    ck (2 * count) (fun k10 =>
    ck ((-2) - k10) (fun k11 =>
    Ok (k11, pwc, ist, ibo)))
   else
    rd s 1%nat (fun x2 =>
    if (x2 =? 0x28) then
     rd s 2%nat (fun x3 =>
     if (x3 =? 0x42) then
      let state := 0 in
      let s := skipn 3%nat s in
      ck (count + 3) (fun k12 =>
      let count := k12 in
      ck (count + 1) (fun k13 =>
      if (Nat.ltb n (Z.to_nat k13)) then
       let ist := state in
       ck (2 * count) (fun k14 =>
       ck ((-2) - k14) (fun k15 =>
       Ok (k15, pwc, ist, ibo)))
      else
       iso2022_jp3_mbtowc_loop fuel count state s n pwc ibo))
     else
      if (x3 =? 0x4a) then
       let state := 1 in
       let s := skipn 3%nat s in
       ck (count + 3) (fun k16 =>
       let count := k16 in
       ck (count + 1) (fun k17 =>
       if (Nat.ltb n (Z.to_nat k17)) then
        let ist := state in
        ck (2 * count) (fun k18 =>
        ck ((-2) - k18) (fun k19 =>
        Ok (k19, pwc, ist, ibo)))
       else
        iso2022_jp3_mbtowc_loop fuel count state s n pwc ibo))
      else
       if (x3 =? 0x49) then
        let state := 2 in
        let s := skipn 3%nat s in
        ck (count + 3) (fun k20 =>
        let count := k20 in
        ck (count + 1) (fun k21 =>
        if (Nat.ltb n (Z.to_nat k21)) then
         let ist := state in
         ck (2 * count) (fun k22 =>
         ck ((-2) - k22) (fun k23 =>
         Ok (k23, pwc, ist, ibo)))
        else
         iso2022_jp3_mbtowc_loop fuel count state s n pwc ibo))
       else
        let ist := state in
        ck (2 * count) (fun k24 =>
        Ok (((-1) - k24), pwc, ist, ibo)))
    else
     if (x2 =? 0x24) then
      rd s 2%nat (fun x7 =>
      if (x7 =? 0x40) then
       iso2022_jp3_mbtowc_j fuel count s n pwc ibo
      else
       if (x7 =? 0x42) then
        iso2022_jp3_mbtowc_j fuel count s n pwc ibo
       else
        if (x7 =? 0x28) then
         ck (count + 4) (fun k25 =>
         if (Nat.ltb n (Z.to_nat k25)) then
          let ist := state in
          ck (2 * count) (fun k26 =>
          ck ((-2) - k26) (fun k27 =>
          Ok (k27, pwc, ist, ibo)))
         else
          rd s 3%nat (fun x10 =>
          if (x10 =? 0x4f) then
           iso2022_jp3_mbtowc_j2 fuel count s n pwc ibo
          else
           if (x10 =? 0x51) then
            iso2022_jp3_mbtowc_j2 fuel count s n pwc ibo
           else
            if (x10 =? 0x50) then
             let state := 5 in
             let s := skipn 4%nat s in
             ck (count + 4) (fun k28 =>
             let count := k28 in
             ck (count + 1) (fun k29 =>
             if (Nat.ltb n (Z.to_nat k29)) then
              let ist := state in
              ck (2 * count) (fun k30 =>
              ck ((-2) - k30) (fun k31 =>
              Ok (k31, pwc, ist, ibo)))
             else
              iso2022_jp3_mbtowc_loop fuel count state s n pwc ibo))
            else
             let ist := state in
             ck (2 * count) (fun k32 =>
             Ok (((-1) - k32), pwc, ist, ibo))))
        else
         let ist := state in
         ck (2 * count) (fun k33 =>
         Ok (((-1) - k33), pwc, ist, ibo)))
     else
      let ist := state in
      ck (2 * count) (fun k34 =>
      Ok (((-1) - k34), pwc, ist, ibo))))
  else
   if (state =? 0) then
    if (c <? 0x80) then
     bind (ascii_mbtowc s 1%nat) (fun '(ret, o) =>
     let pwc := oset pwc o in
     if (ret =? (-1)) then
      let ist := state in
      ck (2 * count) (fun k35 =>
      Ok (((-1) - k35), pwc, ist, ibo))
     else
      if (negb (ret =? 1)) then
       Abort
      else
       let ist := state in
       ck (count + 1) (fun k36 =>
       Ok (k36, pwc, ist, ibo)))
    else
     let ist := state in
     ck (2 * count) (fun k37 =>
     Ok (((-1) - k37), pwc, ist, ibo))
   else
    if (state =? 1) then
     if (c <? 0x80) then
      bind (jisx0201_mbtowc s 1%nat) (fun '(ret, o) =>
      let pwc := oset pwc o in
      if (ret =? (-1)) then
       let ist := state in
       ck (2 * count) (fun k38 =>
       Ok (((-1) - k38), pwc, ist, ibo))
      else
       if (negb (ret =? 1)) then
        Abort
       else
        let ist := state in
        ck (count + 1) (fun k39 =>
        Ok (k39, pwc, ist, ibo)))
     else
      let ist := state in
      ck (2 * count) (fun k40 =>
      Ok (((-1) - k40), pwc, ist, ibo))
    else
     if (state =? 2) then
      if (c <? 0x80) then
       let buf := (c + 0x80) in
       bind (jisx0201_mbtowc [buf] 1%nat) (fun '(ret, o) =>
       let pwc := oset pwc o in
       if (ret =? (-1)) then
        let ist := state in
        ck (2 * count) (fun k41 =>
        Ok (((-1) - k41), pwc, ist, ibo))
       else
        if (negb (ret =? 1)) then
         Abort
        else
         let ist := state in
         ck (count + 1) (fun k42 =>
         Ok (k42, pwc, ist, ibo)))
      else
       let ist := state in
       ck (2 * count) (fun k43 =>
       Ok (((-1) - k43), pwc, ist, ibo))
     else
      if (state =? 3) then
       ck (count + 2) (fun k44 =>
       if (Nat.ltb n (Z.to_nat k44)) then
        let ist := state in
        ck (2 * count) (fun k45 =>
        ck ((-2) - k45) (fun k46 =>
        Ok (k46, pwc, ist, ibo)))
       else
        rd s 0%nat (fun x16 =>
        if (x16 <? 0x80) then
         rd s 1%nat (fun x17 =>
         if (x17 <? 0x80) then
          bind (jisx0208_mbtowc s 2%nat) (fun '(ret, o) =>
          let pwc := oset pwc o in
          if (ret =? (-1)) then
           let ist := state in
           ck (2 * count) (fun k47 =>
           Ok (((-1) - k47), pwc, ist, ibo))
          else
           if (negb (ret =? 2)) then
            Abort
           else
            let ist := state in
            ck (count + 2) (fun k48 =>
            Ok (k48, pwc, ist, ibo)))
         else
          let ist := state in
          ck (2 * count) (fun k49 =>
          Ok (((-1) - k49), pwc, ist, ibo)))
        else
         let ist := state in
         ck (2 * count) (fun k50 =>
         Ok (((-1) - k50), pwc, ist, ibo))))
      else
       if (state =? 4) then
        iso2022_jp3_mbtowc_j3 count state s n pwc ibo
       else
        if (state =? 5) then
         iso2022_jp3_mbtowc_j3 count state s n pwc ibo
        else
         Abort)
  end
with iso2022_jp3_mbtowc_j (fuel : nat) (count : Z) (s : list Z) (n : nat) (pwc : option Z) (ibo : Z) {struct fuel} : res (Z * option Z * Z * Z) :=
  match fuel with O => NoFuel | S fuel =>
  let state := 3 in
  let s := skipn 3%nat s in
  ck (count + 3) (fun k51 =>
  let count := k51 in
  ck (count + 1) (fun k52 =>
  if (Nat.ltb n (Z.to_nat k52)) then
   let ist := state in
   ck (2 * count) (fun k53 =>
   ck ((-2) - k53) (fun k54 =>
   Ok (k54, pwc, ist, ibo)))
  else
   iso2022_jp3_mbtowc_loop fuel count state s n pwc ibo))
  end
with iso2022_jp3_mbtowc_j2 (fuel : nat) (count : Z) (s : list Z) (n : nat) (pwc : option Z) (ibo : Z) {struct fuel} : res (Z * option Z * Z * Z) :=
  match fuel with O => NoFuel | S fuel =>
  let state := 4 in
  let s := skipn 4%nat s in
  ck (count + 4) (fun k55 =>
  let count := k55 in
  ck (count + 1) (fun k56 =>
  if (Nat.ltb n (Z.to_nat k56)) then
   let ist := state in
   ck (2 * count) (fun k57 =>
   ck ((-2) - k57) (fun k58 =>
   Ok (k58, pwc, ist, ibo)))
  else
   iso2022_jp3_mbtowc_loop fuel count state s n pwc ibo))
  end.
(* lib/converters/iso2022_jp3.h:54-206 iso2022_jp3_mbtowc *)
Definition iso2022_jp3_mbtowc (s : list Z) (n : nat) (ist : Z) (ibo : Z) : res (Z * option Z * Z * Z) :=
  let pwc := (None : option Z) in
  let last_wc := (Z.shiftr ist 3) in
  if (negb (last_wc =? 0)) then
   let ist := (Z.land ist 7) in
   let pwc := Some last_wc in
   Ok (0, pwc, ist, ibo)
  else
   let state := ist in
   let count := 0 in
   iso2022_jp3_mbtowc_loop (8 + 4 * n)%nat count state s n pwc ibo.

(* lib/converters/iso2022_jp3.h:208-219 iso2022_jp3_flushwc *)
Definition iso2022_jp3_flushwc (ist : Z) : res (Z * option Z * Z) :=
  let pwc := (None : option Z) in
  let last_wc := (Z.shiftr ist 3) in
  if (negb (last_wc =? 0)) then
   let ist := (Z.land ist 7) in
   let pwc := Some last_wc in
   Ok (1, pwc, ist)
  else
   Ok (0, pwc, ist).

(* lib/converters/iso2022_jp3.h:273-505 iso2022_jp3_wctomb *)
Definition iso2022_jp3_wctomb_j2 (count : Z) (idx : Z) (state : Z) (ro : nat) (r : wlog) : res (Z * wlog * Z) :=
  tget iso2022_jp3_comp_table_data (2 * idx + 1) (fun lasttwo =>
  let r := wr r ro (Z.land (Z.shiftr lasttwo 8) 0xff) in
  let r := wr r (Nat.add ro 1%nat) (Z.land lasttwo 0xff) in
  let ost := state in
  Ok (count, r, ost)).
(* lib/converters/iso2022_jp3.h:273-505 iso2022_jp3_wctomb *)
Definition iso2022_jp3_wctomb_j8 (count : Z) (jch : Z) (state : Z) (n : nat) (ro : nat) (r : wlog) (ost : Z) : res (Z * wlog * Z) :=
  if (negb ((Z.land jch 0x80) =? 0)) then
   if (negb ((Z.land jch 0x8000) =? 0)) then
    Abort
   else
    let prevstate := state in
    let lasttwo := (Z.land jch 0x7f7f) in
    let state := (Z.lor state (Z.lor (Z.shiftl prevstate 0x13) (Z.shiftl lasttwo 3))) in
    let ost := state in
    Ok (count, r, ost)
  else
   let count := (count + 2) in
   if (Nat.ltb n (Z.to_nat count)) then
    Ok ((-2), r, ost)
   else
    let r := wr r ro (Z.land (Z.shiftr jch 8) 0x7f) in
    let r := wr r (Nat.add ro 1%nat) (Z.land jch 0x7f) in
    let ost := state in
    Ok (count, r, ost).
(* lib/converters/iso2022_jp3.h:273-505 iso2022_jp3_wctomb *)
Definition iso2022_jp3_wctomb_j7 (buf : wlog) (count : Z) (jch : Z) (state : Z) (wc : Z) (n : nat) (ro : nat) (r : wlog) (ost : Z) : res (Z * wlog * Z) :=
  if (negb (jch =? 0)) then
   if (negb ((Z.land jch 0x8000) =? 0)) then
    if (negb (state =? 5)) then
     let count := (count + 4) in
     if (Nat.ltb n (Z.to_nat count)) then
      Ok ((-2), r, ost)
     else
      let r := wr r ro 0x1b in
      let r := wr r (Nat.add ro 1%nat) 0x24 in
      let r := wr r (Nat.add ro 2%nat) 0x28 in
      let r := wr r (Nat.add ro 3%nat) 0x50 in
      let ro := (Nat.add ro 4%nat) in
      let state := 5 in
      iso2022_jp3_wctomb_j8 count jch state n ro r ost
    else
     iso2022_jp3_wctomb_j8 count jch state n ro r ost
   else
    if (negb (state =? 4)) then
     let count := (count + 4) in
     if (Nat.ltb n (Z.to_nat count)) then
      Ok ((-2), r, ost)
     else
      let r := wr r ro 0x1b in
      let r := wr r (Nat.add ro 1%nat) 0x24 in
      let r := wr r (Nat.add ro 2%nat) 0x28 in
      let r := wr r (Nat.add ro 3%nat) 0x51 in
      let ro := (Nat.add ro 4%nat) in
      let state := 4 in
      iso2022_jp3_wctomb_j8 count jch state n ro r ost
    else
     iso2022_jp3_wctomb_j8 count jch state n ro r ost
  else
   bind (jisx0201_wctomb wc 1%nat) (fun '(ret, l) =>
   lappb 2%nat buf 0%nat l (fun buf =>
   if (negb (ret =? (-1))) then
    if (negb (ret =? 1)) then
     Abort
    else
     lrd buf 0%nat (fun x16 =>
     if (x16 >=? 0x80) then
      let count := (count + (if (state =? 2) then 1 else 4)) in
      if (Nat.ltb n (Z.to_nat count)) then
       Ok ((-2), r, ost)
      else
       if (negb (state =? 2)) then
        let r := wr r ro 0x1b in
        let r := wr r (Nat.add ro 1%nat) 0x28 in
        let r := wr r (Nat.add ro 2%nat) 0x49 in
        let ro := (Nat.add ro 3%nat) in
        let state := 2 in
        let r := wr r ro (x16 - 0x80) in
        let ost := state in
        Ok (count, r, ost)
       else
        let r := wr r ro (x16 - 0x80) in
        let ost := state in
        Ok (count, r, ost)
     else
      Ok ((-1), r, ost))
   else
    Ok ((-1), r, ost))).
(* lib/converters/iso2022_jp3.h:273-505 iso2022_jp3_wctomb *)
Definition iso2022_jp3_wctomb_j6 (buf : wlog) (count : Z) (state : Z) (wc : Z) (n : nat) (ro : nat) (r : wlog) (ost : Z) : res (Z * wlog * Z) :=
  bind (ucs4_to_jisx0213 wc) (fun jch =>
  bind (jisx0208_wctomb wc 2%nat) (fun '(ret, l) =>
  lappb 2%nat buf 0%nat l (fun buf =>
  if (negb (ret =? (-1))) then
   if (negb (ret =? 2)) then
    Abort
   else
    lrd buf 0%nat (fun x11 =>
    if (x11 <? 0x80) then
     lrd buf 1%nat (fun x12 =>
     if (x12 <? 0x80) then
      if (negb ((Z.land jch 0x80) =? 0)) then
       let prevstate := state in
       let lasttwo := (Z.land jch 0x7f7f) in
       let state := 3 in
       let state := (Z.lor state (Z.lor (Z.shiftl prevstate 0x13) (Z.shiftl lasttwo 3))) in
       let ost := state in
       Ok (count, r, ost)
      else
       let count := (count + (if (state =? 3) then 2 else 5)) in
       if (Nat.ltb n (Z.to_nat count)) then
        Ok ((-2), r, ost)
       else
        if (negb (state =? 3)) then
         let r := wr r ro 0x1b in
         let r := wr r (Nat.add ro 1%nat) 0x24 in
         let r := wr r (Nat.add ro 2%nat) 0x42 in
         let ro := (Nat.add ro 3%nat) in
         let state := 3 in
         let r := wr r ro x11 in
         let r := wr r (Nat.add ro 1%nat) x12 in
         let ost := state in
         Ok (count, r, ost)
        else
         let r := wr r ro x11 in
         let r := wr r (Nat.add ro 1%nat) x12 in
         let ost := state in
         Ok (count, r, ost)
     else
      iso2022_jp3_wctomb_j7 buf count jch state wc n ro r ost)
    else
     iso2022_jp3_wctomb_j7 buf count jch state wc n ro r ost)
  else
   iso2022_jp3_wctomb_j7 buf count jch state wc n ro r ost))).
(* lib/converters/iso2022_jp3.h:273-505 iso2022_jp3_wctomb *)
Definition iso2022_jp3_wctomb_j5 (buf : wlog) (count : Z) (state : Z) (wc : Z) (n : nat) (ro : nat) (r : wlog) (ost : Z) : res (Z * wlog * Z) :=
  bind (jisx0201_wctomb wc 1%nat) (fun '(ret, l) =>
  lappb 2%nat buf 0%nat l (fun buf =>
  if (negb (ret =? (-1))) then
   if (negb (ret =? 1)) then
    Abort
   else
    lrd buf 0%nat (fun x7 =>
    if (x7 <? 0x80) then
     let count := (count + (if (state =? 1) then 1 else 4)) in
     if (Nat.ltb n (Z.to_nat count)) then
      Ok ((-2), r, ost)
     else
      if (negb (state =? 1)) then
       let r := wr r ro 0x1b in
       let r := wr r (Nat.add ro 1%nat) 0x28 in
       let r := wr r (Nat.add ro 2%nat) 0x4a in
       let ro := (Nat.add ro 3%nat) in
       let state := 1 in
       let r := wr r ro x7 in
       let ost := state in
       Ok (count, r, ost)
      else
       let r := wr r ro x7 in
       let ost := state in
       Ok (count, r, ost)
    else
     iso2022_jp3_wctomb_j6 buf count state wc n ro r ost)
  else
   iso2022_jp3_wctomb_j6 buf count state wc n ro r ost)).
(* lib/converters/iso2022_jp3.h:273-505 iso2022_jp3_wctomb *)
Definition iso2022_jp3_wctomb_j4 (buf : wlog) (count : Z) (state : Z) (wc : Z) (n : nat) (ro : nat) (r : wlog) (ost : Z) : res (Z * wlog * Z) :=
  bind (ascii_wctomb wc 1%nat) (fun '(ret, l) =>
  lappb 2%nat buf 0%nat l (fun buf =>
  if (negb (ret =? (-1))) then
   if (negb (ret =? 1)) then
    Abort
   else
    lrd buf 0%nat (fun x4 =>
    if (x4 <? 0x80) then
     let count := (count + (if (state =? 0) then 1 else 4)) in
     if (Nat.ltb n (Z.to_nat count)) then
      Ok ((-2), r, ost)
     else
      if (negb (state =? 0)) then
       let r := wr r ro 0x1b in
       let r := wr r (Nat.add ro 1%nat) 0x28 in
       let r := wr r (Nat.add ro 2%nat) 0x42 in
       let ro := (Nat.add ro 3%nat) in
       let state := 0 in
       let r := wr r ro x4 in
       let ost := state in
       Ok (count, r, ost)
      else
       let r := wr r ro x4 in
       let ost := state in
       Ok (count, r, ost)
    else
     iso2022_jp3_wctomb_j5 buf count state wc n ro r ost)
  else
   iso2022_jp3_wctomb_j5 buf count state wc n ro r ost)).
(* lib/converters/iso2022_jp3.h:273-505 iso2022_jp3_wctomb *)
Definition iso2022_jp3_wctomb_j3 (buf : wlog) (count : Z) (lasttwo : Z) (state : Z) (wc : Z) (n : nat) (ro : nat) (r : wlog) (ost : Z) : res (Z * wlog * Z) :=
  let r := wr r ro (Z.land (Z.shiftr lasttwo 8) 0xff) in
  let r := wr r (Nat.add ro 1%nat) (Z.land lasttwo 0xff) in
  let ro := (Nat.add ro 2%nat) in
  iso2022_jp3_wctomb_j4 buf count state wc n ro r ost.
(* lib/converters/iso2022_jp3.h:273-505 iso2022_jp3_wctomb *)
Definition iso2022_jp3_wctomb_not_combining (buf : wlog) (lasttwo : Z) (prevstate : Z) (state : Z) (wc : Z) (n : nat) (ro : nat) (r : wlog) (ost : Z) : res (Z * wlog * Z) :=
  let count := ((if (negb (prevstate =? state)) then 3 else 0) + 2) in
  if (Nat.ltb n (Z.to_nat count)) then
   Ok ((-2), r, ost)
  else
   if (negb (prevstate =? state)) then
    if (negb (state =? 3)) then
     Abort
    else
     let r := wr r ro 0x1b in
     let r := wr r (Nat.add ro 1%nat) 0x24 in
     let r := wr r (Nat.add ro 2%nat) 0x42 in
     let ro := (Nat.add ro 3%nat) in
     iso2022_jp3_wctomb_j3 buf count lasttwo state wc n ro r ost
   else
    iso2022_jp3_wctomb_j3 buf count lasttwo state wc n ro r ost.
(* lib/converters/iso2022_jp3.h:273-505 iso2022_jp3_wctomb *)
Definition iso2022_jp3_wctomb_j (buf : wlog) (idx : Z) (lasttwo : Z) (len : Z) (prevstate : Z) (state : Z) (wc : Z) (n : nat) (ro : nat) (r : wlog) (ost : Z) : res (Z * wlog * Z) :=
  if (len >? 0) then
   let count := ((if (negb (state =? 4)) then 4 else 0) + 2) in
   if (Nat.ltb n (Z.to_nat count)) then
    Ok ((-2), r, ost)
   else
    if (negb (state =? 4)) then
     let r := wr r ro 0x1b in
     let r := wr r (Nat.add ro 1%nat) 0x24 in
     let r := wr r (Nat.add ro 2%nat) 0x28 in
     let r := wr r (Nat.add ro 3%nat) 0x51 in
     let ro := (Nat.add ro 4%nat) in
     let state := 4 in
     iso2022_jp3_wctomb_j2 count idx state ro r
    else
     iso2022_jp3_wctomb_j2 count idx state ro r
  else
   iso2022_jp3_wctomb_not_combining buf lasttwo prevstate state wc n ro r ost.
(* lib/converters/iso2022_jp3.h:273-505 iso2022_jp3_wctomb *)
Fixpoint iso2022_jp3_wctomb_loop (fuel : nat) (buf : wlog) (idx : Z) (lasttwo : Z) (len : Z) (prevstate : Z) (state : Z) (wc : Z) (n : nat) (ro : nat) (r : wlog) (ost : Z) {struct fuel} : res (Z * wlog * Z) :=
  match fuel with O => NoFuel | S fuel =>
  tget iso2022_jp3_comp_table_data (2 * idx) (fun x1 =>
  if (x1 =? lasttwo) then
   iso2022_jp3_wctomb_j buf idx lasttwo len prevstate state wc n ro r ost
  else
   let idx := (u32 (idx + 1)) in
   let len := (u32 (len - 1)) in
   if (len >? 0) then
    iso2022_jp3_wctomb_loop fuel buf idx lasttwo len prevstate state wc n ro r ost
   else
    iso2022_jp3_wctomb_j buf idx lasttwo len prevstate state wc n ro r ost)
  end.
(* lib/converters/iso2022_jp3.h:273-505 iso2022_jp3_wctomb *)
Definition iso2022_jp3_wctomb (wc : Z) (n : nat) (ost : Z) : res (Z * wlog * Z) :=
  let r := ([] : wlog) in
  let ro := 0%nat in
  let count := 0 in
  let buf := ([] : wlog) in
  let state := ost in
  let lasttwo := (u16 (Z.shiftr state 3)) in
  let prevstate := (Z.shiftr state 0x13) in
  let state := (Z.land state 7) in
  if (negb (lasttwo =? 0)) then
   if (wc =? 0x2e5) then
    let idx := 0 in
    let len := 1 in
    iso2022_jp3_wctomb_loop 64%nat buf idx lasttwo len prevstate state wc n ro r ost
   else
    if (wc =? 0x2e9) then
     let idx := 1 in
     let len := 1 in
     iso2022_jp3_wctomb_loop 64%nat buf idx lasttwo len prevstate state wc n ro r ost
    else
     if (wc =? 0x300) then
      let idx := 2 in
      let len := 5 in
      iso2022_jp3_wctomb_loop 64%nat buf idx lasttwo len prevstate state wc n ro r ost
     else
      if (wc =? 0x301) then
       let idx := 7 in
       let len := 4 in
       iso2022_jp3_wctomb_loop 64%nat buf idx lasttwo len prevstate state wc n ro r ost
      else
       if (wc =? 0x309a) then
        let idx := 0xb in
        let len := 0xe in
        iso2022_jp3_wctomb_loop 64%nat buf idx lasttwo len prevstate state wc n ro r ost
       else
        iso2022_jp3_wctomb_not_combining buf lasttwo prevstate state wc n ro r ost
  else
   iso2022_jp3_wctomb_j4 buf count state wc n ro r ost.

(* lib/converters/iso2022_jp3.h:507-538 iso2022_jp3_reset *)
Definition iso2022_jp3_reset_j2 (count : Z) (state : Z) (ro : nat) (r : wlog) (ost : Z) : res (Z * wlog * Z) :=
  if (negb (state =? 0)) then
   let r := wr r ro 0x1b in
   let r := wr r (Nat.add ro 1%nat) 0x28 in
   let r := wr r (Nat.add ro 2%nat) 0x42 in
   Ok (count, r, ost)
  else
   Ok (count, r, ost).
(* lib/converters/iso2022_jp3.h:507-538 iso2022_jp3_reset *)
Definition iso2022_jp3_reset_j (count : Z) (lasttwo : Z) (state : Z) (ro : nat) (r : wlog) (ost : Z) : res (Z * wlog * Z) :=
  let r := wr r ro (Z.land (Z.shiftr lasttwo 8) 0xff) in
  let r := wr r (Nat.add ro 1%nat) (Z.land lasttwo 0xff) in
  let ro := (Nat.add ro 2%nat) in
  iso2022_jp3_reset_j2 count state ro r ost.
(* lib/converters/iso2022_jp3.h:507-538 iso2022_jp3_reset *)
Definition iso2022_jp3_reset (n : nat) (ost : Z) : res (Z * wlog * Z) :=
  let r := ([] : wlog) in
  let ro := 0%nat in
  let state := ost in
  let lasttwo := (u16 (Z.shiftr state 3)) in
  let prevstate := (Z.shiftr state 0x13) in
  let state := (Z.land state 7) in
  let count := ((if (negb (lasttwo =? 0)) then ((if (negb (prevstate =? state)) then 3 else 0) + 2) else 0) + (if (negb (state =? 0)) then 3 else 0)) in
  if (Nat.ltb n (Z.to_nat count)) then
   Ok ((-2), r, ost)
  else
   if (negb (lasttwo =? 0)) then
    if (negb (prevstate =? state)) then
     if (negb (state =? 3)) then
      Abort
     else
      let r := wr r ro 0x1b in
      let r := wr r (Nat.add ro 1%nat) 0x24 in
      let r := wr r (Nat.add ro 2%nat) 0x42 in
      let ro := (Nat.add ro 3%nat) in
      iso2022_jp3_reset_j count lasttwo state ro r ost
    else
     iso2022_jp3_reset_j count lasttwo state ro r ost
   else
    iso2022_jp3_reset_j2 count state ro r ost.

