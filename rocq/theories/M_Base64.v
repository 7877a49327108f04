(** Model of src/Common/Impl/Base64/Base64.cpp.
    std::string and std::string_view are byte lists; [char] is signed (see [schar]).
    Not modelled: reserve/shrink_to_fit (no observable effect) and exhaustion of memory by
    std::string. *)
From Verif Require Import Prelude M_Crc32.
Local Open Scope Z_scope.

(** Include/Base64.h:22-29  EncodeType; [other_type] stands for any value outside the
    enumerators (reachable by a cast). *)
Inductive EncodeType := standard | url | radix64 | mime | pem | other_type.

(** Base64.cpp:14-19 *)
Definition base64ClassicDictionary : list byte :=
  lit "ABCDEFGHIJKLMNOPQRSTUVWXYZabcdefghijklmnopqrstuvwxyz0123456789+/".

(** Base64.cpp:22-27 *)
Definition base64UrlDictionary : list byte :=
  lit "ABCDEFGHIJKLMNOPQRSTUVWXYZabcdefghijklmnopqrstuvwxyz0123456789-_".

(** Base64.cpp:30-32 *)
Definition radixHashLen : nat := 8.
(** Base64.cpp:35-37 *)
Definition pemStrLen : nat := 64.
(** Base64.cpp:40-42 *)
Definition mimeStrLen : nat := 76.
(** Base64.cpp:45-47 *)
Definition endlineStr : list byte := [x0d; x0a].

(** Base64.cpp:74-86  InGetSymbPosition(char); the result is a char between 0 and 63. *)
Definition InGetSymbPosition (Symb : byte) : res Z :=
  let s := schar Symb in
  let A := schar "A" in let Z' := schar "Z" in
  let a := schar "a" in let z := schar "z" in
  if (A <=? s) && (s <=? Z') then Ok (s - A)
  else if (a <=? s) && (s <=? z) then Ok (s - a + (Z' - A) + 1)
  else if (schar "0" <=? s) && (s <=? schar "9")
       then Ok (s - schar "0" + (Z' - A) + (z - a) + 2)
  else if beqb Symb "+" || beqb Symb "-" then Ok 62
  else if beqb Symb "/" || beqb Symb "_" then Ok 63
  else Throw RuntimeError.

(** dictionary[index].  Base64.cpp:104-121 *)
Definition dict_ (dictionary : list byte) (k : Z) : res byte := at_ dictionary (Z.to_nat k).

(** Base64.cpp:102-125  body of the loop for the index [i]; appends to encodedStr.
    Bitwise operators act on the promoted (signed) characters. *)
Definition encode_step (Buf : list byte) (dictionary : list byte) (trailing : byte)
  (encodedStr : list byte) (i : nat) : res (list byte) :=
  let n := length Buf in
  let* c0 := at_ Buf i in
  let* d0 := dict_ dictionary (Z.shiftr (Z.land (schar c0) 0xFC) 2) in
  if (i + 1 <? n)%nat then
    let* c1 := at_ Buf (i + 1) in
    let* d1 := dict_ dictionary
                 (Z.lor (Z.shiftl (Z.land (schar c0) 0x03) 4)
                        (Z.shiftr (Z.land (schar c1) 0xF0) 4)) in
    if (i + 2 <? n)%nat then
      let* c2 := at_ Buf (i + 2) in
      let* d2 := dict_ dictionary
                   (Z.lor (Z.shiftl (Z.land (schar c1) 0x0F) 2)
                          (Z.shiftr (Z.land (schar c2) 0xC0) 6)) in
      let* d3 := dict_ dictionary (Z.land (schar c2) 0x3F) in
      Ok (encodedStr ++ [d0; d1; d2; d3])
    else
      let* d2 := dict_ dictionary (Z.shiftl (Z.land (schar c1) 0x0F) 2) in
      Ok (encodedStr ++ [d0; d1; d2; trailing])
  else
    let* d1 := dict_ dictionary (Z.shiftl (Z.land (schar c0) 0x03) 4) in
    Ok (encodedStr ++ [d0; d1; trailing; trailing]).

(** lo, lo+step, lo+2*step, ... below hi: the values of i in
    for(i = lo; i < hi; i += step).  Base64.cpp:102, :140 *)
Definition every (step hi : nat) : list nat :=
  map (fun k => step * k)%nat (seq 0 ((hi + (step - 1)) / step)%nat).

(** Base64.cpp:88-127  InBase64Encode(string_view, bool) *)
Definition InBase64Encode (Buf : list byte) (IsUrl : bool) : res (list byte) :=
  if (length Buf =? 0)%nat then Throw InvalidArgument
  else
    let trailing := (if IsUrl then "."%byte else "="%byte) in
    let dictionary := if IsUrl then base64UrlDictionary else base64ClassicDictionary in
    for_each (every 3 (length Buf)) [] (encode_step Buf dictionary trailing).

(** Base64.cpp:145 and :149  '=' or '.' *)
Definition is_pad (c : byte) : bool := beqb "=" c || beqb "." c.

(** decodedStr[j] = v (conversion of int to char).  Base64.cpp:143, :147, :151 *)
Definition set_char (d : list byte) (j : nat) (v : Z) : res (list byte) := put_ d j (z2b v).
(** decodedStr[j] |= v.  Base64.cpp:144, :148, :152 *)
Definition or_char (d : list byte) (j : nat) (v : Z) : res (list byte) :=
  let* x := at_ d j in put_ d j (z2b (Z.lor (schar x) v)).

(** State of the decoding loop: decodedStr, j, and whether [break] was executed.
    Base64.cpp:137-142 *)
Record dstate := mkD { dec : list byte; pos : nat; brk : bool }.

(** Base64.cpp:140-157  body of the loop for the index [i]; once [break] was executed the
    remaining indices do nothing.  (The test at :142 repeats the loop condition.) *)
Definition decode_step (E : list byte) (st : dstate) (i : nat) : res dstate :=
  if brk st then Ok st
  else
    let j := pos st in
    let* c0 := at_ E i in
    let* p0 := InGetSymbPosition c0 in
    let* d := set_char (dec st) j (Z.shiftl p0 2) in
    let* c1 := at_ E (i + 1)%nat in
    let* p1 := InGetSymbPosition c1 in
    let* d := or_char d j (Z.shiftr p1 4) in
    let j := (j + 1)%nat in
    let* c2 := at_ E (i + 2)%nat in
    if is_pad c2 then Ok (mkD d j true)
    else
      let* d := set_char d j (Z.shiftl (Z.land p1 0x0F) 4) in
      let* p2 := InGetSymbPosition c2 in
      let* d := or_char d j (Z.shiftr (Z.land p2 0x3C) 2) in
      let j := (j + 1)%nat in
      let* c3 := at_ E (i + 3)%nat in
      if is_pad c3 then Ok (mkD d j true)
      else
        let* d := set_char d j (Z.shiftl (Z.land p2 0x03) 6) in
        let* p3 := InGetSymbPosition c3 in
        let* d := or_char d j (Z.land p3 0x3F) in
        Ok (mkD d (j + 1)%nat false).

(** Base64.cpp:130-160  InBase64StandardDecode(string_view) *)
Definition InBase64StandardDecode (E : list byte) : res (list byte) :=
  if (length E =? 0)%nat then Throw InvalidArgument
  else
    let* st := for_each (every 4 (length E)) (mkD (repeat x00 (length E)) 0 false)
                 (decode_step E) in
    Ok (firstn (pos st) (dec st)).

(** Base64.cpp:163-171  InBase64DecodeWithSeparators(std::string) *)
Definition InBase64DecodeWithSeparators (E : list byte) : res (list byte) :=
  let E1 := filter (fun c => negb (beqb c x0a)) E in
  let E2 := filter (fun c => negb (beqb c x0d)) E1 in
  InBase64StandardDecode E2.

(** Base64.cpp:188-194  the loop: it makes progress only if EachStrLen > 0; [fuel] bounds
    the number of iterations, its exhaustion is reported as divergence. *)
Fixpoint sep_loop (fuel : nat) (view resStr sep : list byte) (EachStrLen : nat)
  : res (list byte) :=
  if (EachStrLen <? length view)%nat then
    match fuel with
    | O => UB Diverges
    | S f => sep_loop f (skipn EachStrLen view) (resStr ++ firstn EachStrLen view ++ sep)
               sep EachStrLen
    end
  else Ok (resStr ++ view).

(** Base64.cpp:174-198  InBase64EncodeWithSeparator *)
Definition InBase64EncodeWithSeparator (Buf sep : list byte) (EachStrLen : nat)
  : res (list byte) :=
  if (length sep =? 0)%nat || (EachStrLen =? 0)%nat then Throw InvalidArgument
  else
    let* encodedStr := InBase64Encode Buf false in
    sep_loop (length encodedStr) encodedStr [] sep EachStrLen.

(** Base64.cpp:200-206 *)
Definition InBase64EncodePem (s : list byte) := InBase64EncodeWithSeparator s endlineStr pemStrLen.
(** Base64.cpp:209-215 *)
Definition InBase64EncodeMime (s : list byte) := InBase64EncodeWithSeparator s endlineStr mimeStrLen.

(** Crc32::CalcHash(s.c_str(), s.length()): the length is converted to uint32_t; the buffer
    is the string followed by its terminating zero.  Base64.cpp:227, :246 *)
Definition hash_of_string (s : list byte) : res Z :=
  CalcHash (Some (s ++ [x00])) (Z.of_nat (length s) mod 2 ^ 32).

(** Base64.cpp:219-232  InRadix64Encode; the four bytes of [hash] in memory order are its
    little-endian image. *)
Definition InRadix64Encode (s : list byte) : res (list byte) :=
  if (length s =? 0)%nat then Ok []
  else
    let* encodedStr := InBase64EncodeMime s in
    let* hash := hash_of_string encodedStr in
    if hash =? 0 then Throw RuntimeError
    else
      let* h := InBase64Encode (le_bytes 4 hash) false in
      Ok (encodedStr ++ h).

(** Base64.cpp:235-250  InRadix64Decode *)
Definition InRadix64Decode (s : list byte) : res (list byte) :=
  if (length s =? 0)%nat then Ok []
  else if (length s <=? radixHashLen)%nat then Throw InvalidArgument
  else
    let crc32HashStr := skipn (length s - radixHashLen) s in
    let noHashStr := firstn (length s - radixHashLen) s in
    let* calcedHash := hash_of_string noHashStr in
    let* calcedHashStr := InBase64Encode (le_bytes 4 calcedHash) false in
    if negb (streqb calcedHashStr crc32HashStr) then Throw RuntimeError
    else InBase64DecodeWithSeparators noHashStr.

(** Base64.cpp:255-269  Base64::Base64Encode *)
Definition Base64Encode (Buf : list byte) (t : EncodeType) : res (list byte) :=
  match t with
  | standard => InBase64Encode Buf false
  | url => InBase64Encode Buf true
  | radix64 => InRadix64Encode Buf
  | mime => InBase64EncodeMime Buf
  | pem => InBase64EncodePem Buf
  | other_type => Ok []
  end.

(** Base64.cpp:272-286  Base64::Base64Decode *)
Definition Base64Decode (E : list byte) (t : EncodeType) : res (list byte) :=
  match t with
  | standard | url => InBase64StandardDecode E
  | radix64 => InRadix64Decode E
  | mime | pem => InBase64DecodeWithSeparators E
  | other_type => Ok []
  end.
