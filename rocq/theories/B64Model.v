(** * Model of the base 64 coding of Utilities/verticalDatum.c (no proofs here).

    A char is a cell 0..255 in memory and signed (as on the platforms the library is built for) when it is used as a number.
    Not modelled: failing allocations. *)
From Coq Require Import ZArith List Bool.
From Verif Require Import Base CStr.
Import ListNotations.
Open Scope Z_scope.
Open Scope res_scope.

(** verticalDatum.c:14 *)
Definition base64chars : list Z := [65; 66; 67; 68; 69; 70; 71; 72; 73; 74; 75; 76; 77; 78; 79; 80; 81; 82; 83; 84; 85; 86; 87; 88; 89; 90; 97; 98; 99; 100; 101; 102; 103; 104; 105; 106; 107; 108; 109; 110; 111; 112; 113; 114; 115; 116; 117; 118; 119; 120; 121; 122; 48; 49; 50; 51; 52; 53; 54; 55; 56; 57; 43; 47].
(** verticalDatum.c:19-34 *)
Definition base64bytes : list Z := [255; 255; 255; 255; 255; 255; 255; 255; 255; 255; 255; 255; 255; 255; 255; 255; 255; 255; 255; 255; 255; 255; 255; 255; 255; 255; 255; 255; 255; 255; 255; 255; 255; 255; 255; 255; 255; 255; 255; 255; 255; 255; 255; 62; 255; 255; 255; 63; 52; 53; 54; 55; 56; 57; 58; 59; 60; 61; 255; 255; 255; 255; 255; 255; 255; 0; 1; 2; 3; 4; 5; 6; 7; 8; 9; 10; 11; 12; 13; 14; 15; 16; 17; 18; 19; 20; 21; 22; 23; 24; 25; 255; 255; 255; 255; 255; 255; 26; 27; 28; 29; 30; 31; 32; 33; 34; 35; 36; 37; 38; 39; 40; 41; 42; 43; 44; 45; 46; 47; 48; 49; 50; 51; 255; 255; 255; 255; 255; 255; 255; 255; 255; 255; 255; 255; 255; 255; 255; 255; 255; 255; 255; 255; 255; 255; 255; 255; 255; 255; 255; 255; 255; 255; 255; 255; 255; 255; 255; 255; 255; 255; 255; 255; 255; 255; 255; 255; 255; 255; 255; 255; 255; 255; 255; 255; 255; 255; 255; 255; 255; 255; 255; 255; 255; 255; 255; 255; 255; 255; 255; 255; 255; 255; 255; 255; 255; 255; 255; 255; 255; 255; 255; 255; 255; 255; 255; 255; 255; 255; 255; 255; 255; 255; 255; 255; 255; 255; 255; 255; 255; 255; 255; 255; 255; 255; 255; 255; 255; 255; 255; 255; 255; 255; 255; 255; 255; 255; 255; 255; 255; 255; 255; 255; 255; 255; 255; 255; 255; 255; 255; 255; 255; 255; 255; 255; 255].

(** verticalDatum.c:349-353 *)
Definition b64EncodedLen (n : Z) : Z := if n =? 0 then 0 else if n <? 0 then -1 else (Z.quot (n - 1) 3 + 1) * 4.
(** verticalDatum.c:357-361 *)
Definition b64DecodedLen (n : Z) : Z := if n <? 0 then -1 else if negb (Z.rem n 4 =? 0) then -2 else Z.quot n 4 * 3.

(** i[k], a char as a number *)
Definition char_at (src : list Z) (i : Z) : res Z := let* c := aget src i in Ok (schar c).
(** a number stored in a char *)
Definition u8 (v : Z) : Z := v mod 256.
Definition put4 (buf : list Z) (o a b c d : Z) : res (list Z) :=
  let* buf := aset buf o a in let* buf := aset buf (o + 1) b in let* buf := aset buf (o + 2) c in aset buf (o + 3) d.
(** verticalDatum.c:365-370 *)
Definition e0_0 (i0 : Z) := Z.shiftr (Z.land i0 252) 2.
Definition e0_1 (i0 : Z) := Z.shiftl (Z.land i0 3) 4.
Definition e1_1 (i1 : Z) := Z.shiftr (Z.land i1 240) 4.
Definition e1_2 (i1 : Z) := Z.shiftl (Z.land i1 15) 2.
Definition e2_2 (i2 : Z) := Z.shiftr (Z.land i2 192) 6.
Definition e2_3 (i2 : Z) := Z.land i2 63.
(** verticalDatum.c:381-408 : the buffer and the place of the next character *)
Fixpoint enc_loop (fuel : nat) (src : list Z) (i : Z) (buf : list Z) (o remaining : Z) : res (list Z * Z) :=
  if remaining <=? 0 then Ok (buf, o) else
  match fuel with
  | O => Undef
  | S f =>
      let* i0 := char_at src i in
      let* c0 := aget base64chars (e0_0 i0) in
      if remaining =? 1 then
        let* c1 := aget base64chars (e0_1 i0) in
        let* buf := put4 buf o c0 c1 61 61 in enc_loop f src i buf (o + 4) 0
      else
      let* i1 := char_at src (i + 1) in
      let* c1 := aget base64chars (Z.lor (e0_1 i0) (e1_1 i1)) in
      if remaining =? 2 then
        let* c2 := aget base64chars (e1_2 i1) in
        let* buf := put4 buf o c0 c1 c2 61 in enc_loop f src i buf (o + 4) 0
      else
      let* i2 := char_at src (i + 2) in
      let* c2 := aget base64chars (Z.lor (e1_2 i1) (e2_2 i2)) in
      let* c3 := aget base64chars (e2_3 i2) in
      let* buf := put4 buf o c0 c1 c2 c3 in enc_loop f src (i + 3) buf (o + 4) (remaining - 3)
  end.
(** verticalDatum.c:374-411 : the status and the new buffer *)
Definition b64Encode (toEncode : list Z) (toEncodeLen : Z) : res (Z * option (list Z)) :=
  let* len := chk32 (b64EncodedLen toEncodeLen) in
  if len <? 0 then Ok (len, None) else
  let* '(buf, o) := enc_loop (S (Z.to_nat toEncodeLen)) toEncode 0 (repeat 0 (Z.to_nat (len + 1))) 0 toEncodeLen in
  let* buf := aset buf o 0 in
  Ok (0, Some buf).

(** verticalDatum.c:421-426 *)
Definition d0_0 (i0 : Z) := Z.shiftl (Z.land i0 63) 2.
Definition d1_0 (i1 : Z) := Z.shiftr (Z.land i1 48) 4.
Definition d1_1 (i1 : Z) := Z.shiftl (Z.land i1 15) 4.
Definition d2_1 (i2 : Z) := Z.shiftr (Z.land i2 60) 2.
Definition d2_2 (i2 : Z) := Z.shiftl (Z.land i2 3) 6.
Definition d3_2 (i3 : Z) := Z.land i3 63.
(** verticalDatum.c:450-453 : the entry of the table for a char, stored in a char and used as a number *)
Definition sextet (src : list Z) (c : Z) : res Z := let* x := char_at src c in let* v := aget base64bytes x in Ok (schar v).
(** verticalDatum.c:449-475 : the status, the buffer and the place in the text *)
Fixpoint dec_loop (fuel : nat) (src : list Z) (c : Z) (buf : list Z) (o : Z) : res (Z * list Z * Z) :=
  let* ch := aget src c in
  if ch =? 0 then Ok (0, buf, c) else
  match fuel with
  | O => Undef
  | S f =>
      let* i0 := sextet src c in let* i1 := sextet src (c + 1) in let* i2 := sextet src (c + 2) in let* i3 := sextet src (c + 3) in
      if (i0 =? 255) || (i1 =? 255) then Ok (-3, buf, 0) else
      let* buf := aset buf o (u8 (Z.lor (d0_0 i0) (d1_0 i1))) in
      let v1 := u8 (d1_1 i1) in
      let* buf := aset buf (o + 1) v1 in
      let* ch2 := aget src (c + 2) in
      if ch2 =? 61 then Ok (0, buf, c + 2) else
      let* buf := aset buf (o + 1) (u8 (Z.lor (schar v1) (d2_1 i2))) in
      let v2 := u8 (d2_2 i2) in
      let* buf := aset buf (o + 2) v2 in
      let* ch3 := aget src (c + 3) in
      if ch3 =? 61 then Ok (0, buf, c + 3) else
      let* buf := aset buf (o + 2) (u8 (Z.lor (schar v2) (d3_2 i3))) in
      dec_loop f src (c + 4) buf (o + 3)
  end.
(** verticalDatum.c:430-478 : the status, and the new buffer with the length given back *)
Definition b64Decode (toDecode : list Z) : res (Z * option (list Z * Z)) :=
  let* s := cstr toDecode in
  let len := b64DecodedLen (slen s) in
  let* len := (if len <? 4 then Ok (-1) else
               let* a := aget toDecode (len - 2) in
               if a =? 61 then Ok (len - 2) else
               let* b := aget toDecode (len - 1) in
               if b =? 61 then Ok (len - 1) else Ok len) in
  if len <? 0 then Ok (len, None) else
  let* '(st, buf, c) := dec_loop (S (length s)) toDecode 0 (repeat 0 (length s)) 0 in
  if st =? 0 then Ok (0, Some (buf, c)) else Ok (st, None).
