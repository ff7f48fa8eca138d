(* The LPDDR6 data formatter.  Models DataFormatter::formatData:
   src/DRAMPower/DRAMPower/standards/lpddr6/LPDDR6Interface.cpp 393-462 and the
   constants of LPDDR6Interface.h. *)
From Coq Require Import NArith List Bool Arith.
From Verif Require Import Base Bits.
Import ListNotations.

(* dataBitMapping: standards/lpddr6/LPDDR6Interface.h 46-82. *)
Definition data_bit_mapping : list nat := [
   0; 4; 8; 12; 16; 20; 24; 28; 32; 36; 40; 44; 1; 5; 9; 13; 17; 21; 25; 29; 33; 37; 41; 45;
   2; 6; 10; 14; 18; 22; 26; 30; 34; 38; 42; 46; 3; 7; 11; 15; 19; 23; 27; 31; 35; 39; 43; 47;
   48; 52; 56; 60; 64; 68; 72; 76; 80; 84; 88; 92; 49; 53; 57; 61; 65; 69; 73; 77; 81; 85; 89; 93;
   50; 54; 58; 62; 66; 70; 74; 78; 82; 86; 90; 94; 51; 55; 59; 63; 67; 71; 75; 79; 83; 87; 91; 95;
   96; 100; 104; 108; 112; 116; 120; 124; 97; 101; 105; 109; 113; 117; 121; 125; 98; 102; 106; 110; 114; 118; 122; 126;
   99; 103; 107; 111; 115; 119; 123; 127; 128; 132; 136; 140; 144; 148; 152; 156; 160; 164; 168; 172; 129; 133; 137; 141;
   145; 149; 153; 157; 161; 165; 169; 173; 130; 134; 138; 142; 146; 150; 154; 158; 162; 166; 170; 174; 131; 135; 139; 143;
   147; 151; 155; 159; 163; 167; 171; 175; 176; 180; 184; 188; 192; 196; 200; 204; 208; 212; 216; 220; 177; 181; 185; 189;
   193; 197; 201; 205; 209; 213; 217; 221; 178; 182; 186; 190; 194; 198; 202; 206; 210; 214; 218; 222; 179; 183; 187; 191;
   195; 199; 203; 207; 211; 215; 219; 223; 224; 228; 232; 236; 240; 244; 248; 252; 225; 229; 233; 237; 241; 245; 249; 253;
   226; 230; 234; 238; 242; 246; 250; 254; 227; 231; 235; 239; 243; 247; 251; 255; 0; 0; 0; 0; 0; 0; 0; 0;
   0; 0; 0; 0; 0; 0; 0; 0; 0; 0; 0; 0; 0; 0; 0; 0; 0; 0; 0; 0; 0; 0; 0; 0].

(* additionalDataPerBurst, dataBitsPerBurst, dataBitsPerBurstNoMetaNoDBI,
   dataBytesPerBurst: standards/lpddr6/LPDDR6Interface.h 88-93. *)
Definition additional_bits : nat := 32.
(* With additional_bits: additionalDataPerBurst, dataBitsPerBurst,
   dataBitsPerBurstNoMetaNoDBI, dataBytesPerBurst:
   standards/lpddr6/LPDDR6Interface.h 88-93. *)
Definition burst_bits : nat := 288.
(* With additional_bits: additionalDataPerBurst, dataBitsPerBurst,
   dataBitsPerBurstNoMetaNoDBI, dataBytesPerBurst:
   standards/lpddr6/LPDDR6Interface.h 88-93. *)
Definition payload_bits : nat := 256.
(* With additional_bits: additionalDataPerBurst, dataBitsPerBurst,
   dataBitsPerBurstNoMetaNoDBI, dataBytesPerBurst:
   standards/lpddr6/LPDDR6Interface.h 88-93. *)
Definition burst_bytes : nat := 36.

(* The accumulation of dbival: standards/lpddr6/LPDDR6Interface.cpp 415-421. *)
Definition dbi_word (inv : option (list bool)) : N :=
  match inv with
  | None => 0%N
  | Some l => fold_left (fun w i => N.lor w (if nth i l false then N.shiftl 1 (N.of_nat i) else 0%N)) (seq 0 (Nat.min (length l) 32)) 0%N
  end.

(* `(dbival >> k) & 1` on a 32-bit unsigned value.  A shift by 32 or more is
   undefined.  wild = None treats it as such; wild = Some f lets it give any
   value f k, as a compiler may. *)
Definition shift_bit (wild : option (nat -> bool)) (v : N) (k : nat) : result bool :=
  if Nat.ltb k 32 then Value (N.testbit v (N.of_nat k)) else match wild with Some f => Value (f k) | None => Fails UB end.
(* inputData[m >> 3] >> (m & 7) & 1: line 447; reading past the data is
   undefined. *)
Definition input_bit (data : list N) (m : nat) : result bool :=
  match nth_error data (m / 8) with Some b => Value (N.testbit b (N.of_nat (m mod 8))) | None => Fails UB end.
(* m_formatResult[k >> 3] |= bit << (k & 7): line 454. *)
Definition or_bit (buf : list N) (k : nat) (v : bool) : result (list N) :=
  if Nat.ltb (k / 8) (length buf)
  then Value (upd (k / 8) (fun b => N.lor b (if v then N.shiftl 1 (N.of_nat (k mod 8)) else 0%N)) buf)
  else Fails UB.

(* The loop variables dataBitIdx, burst and dq: lines 423-431. *)
Record fmt := mkFmt { f_idx : nat; f_burst : nat; f_dq : nat; f_buf : list N }.
(* The flags of lines 433-438. *)
Definition special (dq : nat) : bool := Nat.eqb dq 4 || Nat.eqb dq 5 || Nat.eqb dq 10 || Nat.eqb dq 11.
(* With special: The flags of lines 433-438. *)
Definition is_meta (burst dq : nat) : bool := Nat.leb 8 burst && Nat.ltb burst 12 && special dq.
(* With special: The flags of lines 433-438. *)
Definition is_dbi (burst dq : nat) : bool := Nat.leb 20 burst && Nat.ltb burst 24 && special dq.
(* group and bitOffset: lines 441-443.  The subtraction is of a std::size_t and
   an int but never goes below zero. *)
Definition group_of (dq : nat) : nat := if special dq then Nat.lor (Nat.land (dq / 4) 2) (Nat.land dq 1) else 0.
(* With group_of: group and bitOffset: lines 441-443.  The subtraction is of a
   std::size_t and an int but never goes below zero. *)
Definition bit_offset (burst dq : nat) : nat :=
  group_of dq * 4 + (burst - ((if is_meta burst dq then 8 else 0) + (if is_dbi burst dq then 20 else 0))).
(* The loop body: lines 432-460.  meta is m_metaData, a pair of 16-bit
   numbers. *)
Definition fmt_step (wild : option (nat -> bool)) (meta : N * N) (data : list N) (dbival : N) (nbursts burst24 i : nat) (s : fmt) : result fmt :=
  let meta_now := is_meta (f_burst s) (f_dq s) in
  let dbi_now := is_dbi (f_burst s) (f_dq s) in
  let data_now := negb (meta_now || dbi_now) in
  let off := bit_offset (f_burst s) (f_dq s) in
  match nth_error data_bit_mapping (f_idx s) with
  | None => Fails UB
  | Some m =>
      dataBit <- input_bit data (payload_bits * burst24 + m) ;;
      let metaBit := N.testbit (if Nat.eqb burst24 0 then fst meta else snd meta) (N.of_nat off) in
      dbiBit <- shift_bit wild dbival (16 * burst24 + off) ;;
      let v := (dbiBit && dbi_now) || (metaBit && meta_now) || (dataBit && data_now) in
      buf <- or_bit (f_buf s) (nbursts * burst_bits - 1 - (burst24 * burst_bits + i)) v ;;
      let wrap := Nat.eqb 12 (f_dq s + 1) in
      Value (mkFmt (f_idx s + (if data_now then 1 else 0)) (f_burst s + (if wrap then 1 else 0)) (if wrap then 0 else f_dq s + 1) buf)
  end.
(* The inner loop and its initialisation: lines 428-460. *)
Definition fmt_burst (wild : option (nat -> bool)) (meta : N * N) (data : list N) (dbival : N) (nbursts burst24 : nat) (buf : list N) : result (list N) :=
  s <- loop (fmt_step wild meta data dbival nbursts burst24) (seq 0 288) (mkFmt 0 0 0 buf) ;; Value (f_buf s).
(* formatData: standards/lpddr6/LPDDR6Interface.cpp 393-462.  old is the content
   of m_formatResult; the result is the pointer (None for null) with its
   contents, and the number of bits. *)
Definition format_data (wild : option (nat -> bool)) (meta : N * N) (old : list N) (data : option (list N)) (n_bits : nat) (inv : option (list bool))
  : result (option (list N) * nat) :=
  check (Nat.eqb (burst_bits - additional_bits) n_bits || Nat.eqb (2 * (burst_bits - additional_bits)) n_bits)
    (let nbursts := if Nat.eqb (2 * (burst_bits - additional_bits)) n_bits then 2 else 1 in
     match data with
     | None => Value (None, n_bits + nbursts * additional_bits)
     | Some d =>
         let buf := repeat 0%N (nbursts * burst_bytes) ++ skipn (nbursts * burst_bytes) old in
         r <- loop (fun h b => fmt_burst wild meta d (dbi_word inv) nbursts h b) (seq 0 nbursts) buf ;;
         Value (Some r, nbursts * burst_bits)
     end).
