(** Model of src/Common/Impl/RunLengthEncoding/RunLengthEncoding.cpp (the compression ratios,
    which compute with doubles, are in M_Ratio.v).  Not modelled: reserve/shrink_to_fit. *)
From Verif Require Import Prelude M_ByteHandler M_Vector2D M_BitMatrix M_LayoutCore.

(** RunLengthEncoding.cpp:4-5 *)
Definition g_maxRleCounterValue : byte := x7f.
(** RunLengthEncoding.cpp:5 *)
Definition g_lastBitPos : nat := 7.

(** key++ and counter-- on uint8_t.  RunLengthEncoding.cpp:52, :101, :135, :188 *)
Definition inc8 (b : byte) : byte := z2b (b2z b + 1).

(** RunLengthEncoding.cpp:21-34  Encode(string_view) and Decode(string_view): stubs *)
Definition Rle_EncodeStr (Str : list byte) : list byte := [].
(** RunLengthEncoding.cpp:29-34 *)
Definition Rle_DecodeStr (Str : list byte) : list byte := [].

(** RunLengthEncoding.cpp:50-65 and :133-148  the body both encoders share: one bit [v];
    state (encoded, current value, key). *)
Definition rle_step (st : list byte * bool * byte) (v : bool) : res (list byte * bool * byte) :=
  let '(encoded, curr, key) := st in
  let* st1 := (if Bool.eqb curr v then Ok (encoded, curr, inc8 key)
               else let* k := SetBit key g_lastBitPos curr in
                    Ok (encoded ++ [k], negb curr, x01)) in
  let '(encoded, curr, key) := st1 in
  if beqb key g_maxRleCounterValue
  then let* k := SetBit key g_lastBitPos curr in Ok (encoded ++ [k], curr, x00)
  else Ok (encoded, curr, key).

(** RunLengthEncoding.cpp:68-69 and :152-153  the last run *)
Definition rle_finish (st : list byte * bool * byte) : res (list byte) :=
  let '(encoded, curr, key) := st in
  let* k := SetBit key g_lastBitPos curr in Ok (encoded ++ [k]).

(** RunLengthEncoding.cpp:37-73  ByteEncode: Str[0] is read unconditionally; bits 7..0 of
    every byte. *)
Definition Rle_ByteEncode (Str : list byte) : res (list byte) :=
  let* s0 := at_ Str 0 in
  let* curr := GetBit s0 g_lastBitPos in
  let* st := for_each (upto 0 (length Str)) ([], curr, x00) (fun st i =>
    for_each [7; 6; 5; 4; 3; 2; 1; 0] st (fun st j =>
      let* c := at_ Str i in
      let* v := GetBit c j in
      rle_step st v)) in
  rle_finish st.

(** RunLengthEncoding.cpp:93-102  the inner loop of ByteDecode: [counter] counts down, a
    local byte is modified, nothing else ([if (0 == g_maxRleCounterValue)] is never true). *)
Fixpoint byte_decode_run (counter : nat) (byte : byte) (value : bool) : res unit :=
  match counter with
  | O => Ok tt
  | S n => let* b := SetBit byte 7 value in byte_decode_run n b value
  end.

(** RunLengthEncoding.cpp:76-106  ByteDecode: decodedStr is never appended to. *)
Definition Rle_ByteDecode (EncodedStr : list byte) : res (list byte) :=
  if (length EncodedStr =? 0) then Ok []
  else
    let* _ := for_each (upto 0 (length EncodedStr)) tt (fun _ i =>
      let* e := at_ EncodedStr i in
      let* value := GetBit e 7 in
      let* counter := SetBit e g_lastBitPos false in
      byte_decode_run (Z.to_nat (b2z counter)) x00 value) in
    Ok [].

(** RunLengthEncoding.cpp:117-156  Encode(const LayoutMatrix&) *)
Definition Rle_Encode (al : allocator) (m : bm) : res (list byte) :=
  if LM_not al m then Ok []
  else
    let* curr := Get m 0 0 in
    let* st := for_each (upto 0 (GetRowCount m)) ([], curr, x00) (fun st i =>
      for_each (upto 0 (GetColumnCount m)) st (fun st j =>
        let* v := Get m i j in rle_step st v)) in
    rle_finish st.

(** RunLengthEncoding.cpp:179-189  the inner loop of DecodeMatrix for a run of [n] bits;
    state (matrix, k, j).  An exception of Set leaves the loop for the [catch(...)] at :191,
    which does nothing to this state. *)
Fixpoint decode_run (n : nat) (st : bm * nat * nat) (value : bool) : res (bm * nat * nat) :=
  match n with
  | O => Ok st
  | S n' =>
      let '(m, k, j) := st in
      match Set_ m k j value with
      | Ok m' =>
          let j := j + 1 in
          if j =? GetColumnCount m' then decode_run n' (m', k + 1, 0) value
          else decode_run n' (m', k, j) value
      | Throw _ => Ok (m, k, j)
      | UB u => UB u
      end
  end.

(** RunLengthEncoding.cpp:159-198  DecodeMatrix (the by-value return is elided or copies). *)
Definition Rle_DecodeMatrix (al : allocator) (Str : list byte) (RowCount ColCount : nat) : res bm :=
  if length Str =? 0 then Ok bm_empty
  else
    let* st := for_each (upto 0 (length Str)) (LM_ctor al RowCount ColCount, 0, 0) (fun st i =>
      let* tmp := at_ Str i in
      let* value := GetBit tmp g_lastBitPos in
      let* cnt := SetBit tmp g_lastBitPos false in
      decode_run (Z.to_nat (b2z cnt)) st value) in
    let '(m, _, _) := st in Ok m.
