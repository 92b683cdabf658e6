(** The text conversions of GSString.cpp.

    Scope: lines 2361-2736.  [TXChar] is a 16-bit unit (char16_t on Linux), [char32_t] a 32-bit one.
    Text is a list of units without the terminating zero.  [char] is signed on the platform, but
    the code only masks the values, so bytes are modelled as 0..255.

    The project's own decoders (utf32..., txChar..., utf8...) are used on the Windows and macOS
    branches and by the wchar_t constructors; on Linux [SetStdUStrFromCharBuffer] and
    [PrepareCharBuffer] call [std::wstring_convert<std::codecvt_utf8_utf16<char16_t>>], which is
    modelled by [from_bytes]/[to_bytes] below: strict conversion, [None] = std::range_error. *)
From Coq Require Import List NArith ZArith Lia Bool.
From Coq Require Import ZifyN ZifyNat ZifyBool.
From Verif Require Import Bytes.
Import ListNotations.
Open Scope N_scope.

(** A char16_t assignment keeps 16 bits. *)
Definition u16 (v : N) : N := v mod 65536.

(** GSString.cpp:2587. *)
Definition LEAD_OFFSET : N := 55296 - N.shiftr 65536 10.

(** [utf32ToTXCharBuffer], GSString.cpp:2590-2608: the units written before the terminating zero. *)
Definition utf32_to_tx (input : N) : list N :=
  if input <=? 65535 then [u16 input]
  else if input <=? 1114111 then
    [u16 (LEAD_OFFSET + u16 (N.shiftr input 10)); u16 (56320 + N.land input 1023)]
  else [63].

(** [utf32BufferToTXCharBuffer], GSString.cpp:2612-2632: [n] is numInputChars, reading the element
    behind the list is not modelled as an error because callers pass zero-terminated text. *)
Fixpoint utf32_buffer_to_tx (input : list N) (n : nat) : list N :=
  match n, input with
  | S n', c :: rest => if c =? 0 then [] else utf32_to_tx c ++ utf32_buffer_to_tx rest n'
  | _, _ => []
  end.

(** GSString.cpp:2636, a char32_t constant (wraps modulo 2^32). *)
Definition SURROGATE_OFFSET : N := two32 + 65536 - N.shiftl 55296 10 - 56320.

(** [txCharBufferToUtf32Buffer], GSString.cpp:2638-2670.  [len] is bufElemNum - 1 (a size_t), the
    input is zero-terminated, so the unit behind the last one reads as 0. *)
Fixpoint tx_to_utf32_loop (fuel : nat) (input : list N) (len : N) : list N :=
  match fuel with
  | O => []
  | S f =>
    if len =? 0 then [] else
    match input with
    | [] => []
    | uc :: rest =>
      if uc =? 0 then [] else
      if (uc <? 55296) || (57343 <? uc) then uc :: tx_to_utf32_loop f rest (len - 1)
      else
        let nx := hd 0 rest in
        if (uc <? 56320) && (56320 <=? nx) && (nx <=? 57343)
        then (N.shiftl uc 10 + nx + SURROGATE_OFFSET) mod two32 :: tx_to_utf32_loop f (tl rest) (len - 1)
        else 63 :: tx_to_utf32_loop f rest (len - 1)
    end
  end.
Definition tx_to_utf32 (input : list N) (bufElemNum : N) : list N :=
  tx_to_utf32_loop (length input) input ((bufElemNum + two64 - 1) mod two64).

(** Reading byte [i] of the input; [None] is a read outside it. *)
Definition rd (b : list N) (i : N) : option N := nth_error b (N.to_nat i).

(** GSString.cpp:2694-2696: the one or two units stored for one code point ([u] is the three
    element array filled by [utf32ToTXCharBuffer]). *)
Definition emit (w : N) : list N :=
  let u := utf32_to_tx w ++ [0] in
  nth 0 u 0 :: (if nth 1 u 0 =? 0 then [] else [nth 1 u 0]).

(** The loop of [utf8BufferToTXCharBuffer], GSString.cpp:2681-2728: index after the loop and units
    written; [None] = read outside the input (or fuel exhausted, excluded by the proofs). *)
Fixpoint utf8_loop (fuel : nat) (b : list N) (inputLen i : N) : option (N * list N) :=
  match fuel with
  | O => None
  | S f =>
    if inputLen <=? i then Some (i, []) else
    match rd b i with
    | None => None
    | Some c0 =>
      let next k units :=
        match utf8_loop f b inputLen (i + k) with
        | Some (j, out) => Some (j, units ++ out)
        | None => None
        end in
      if N.land c0 128 =? 0 then next 1 [c0]
      else if N.land c0 224 =? 192 then
        if inputLen <=? i + 1 then Some (i, []) else
        match rd b (i + 1) with
        | Some c1 => next 2 (emit (N.shiftl (N.land c0 31) 6 + N.land c1 63))
        | None => None
        end
      else if N.land c0 240 =? 224 then
        if inputLen <=? i + 2 then Some (i, []) else
        match rd b (i + 1), rd b (i + 2) with
        | Some c1, Some c2 =>
          next 3 (emit (N.shiftl (N.land c0 15) 12 + N.shiftl (N.land c1 63) 6 + N.land c2 63))
        | _, _ => None
        end
      else if N.land c0 248 =? 240 then
        if inputLen <=? i + 3 then Some (i, []) else
        match rd b (i + 1), rd b (i + 2), rd b (i + 3) with
        | Some c1, Some c2, Some c3 =>
          next 4 (emit (N.shiftl (N.land c0 7) 18 + N.shiftl (N.land c1 63) 12
                        + N.shiftl (N.land c2 63) 6 + N.land c3 63))
        | _, _, _ => None
        end
      else next 1 [63]
    end
  end.

(** [utf8BufferToTXCharBuffer], GSString.cpp:2675-2736, with the question marks for the bytes left
    over when a sequence is cut off (2730-2733).  The result is what is written before the
    terminating zero. *)
Definition utf8_to_tx (b : list N) (inputLen : N) : option (list N) :=
  match utf8_loop (S (N.to_nat inputLen)) b inputLen 0 with
  | Some (i, out) => Some (out ++ repeat 63 (N.to_nat (inputLen - i)))
  | None => None
  end.

(** One step of the strict UTF-8 decoder of the C++ library (Unicode Table 3-7: no overlong form, no
    surrogate, nothing above 0x10FFFF). *)
Definition cont (b : N) : bool := (128 <=? b) && (b <? 192).
Definition dec8_1 (b : list N) : option (N * list N) :=
  match b with
  | b0 :: r =>
    if b0 <? 128 then Some (b0, r)
    else match r with
    | b1 :: r1 =>
      if (194 <=? b0) && (b0 <? 224) then
        if cont b1 then Some ((b0 - 192) * 64 + (b1 - 128), r1) else None
      else match r1 with
      | b2 :: r2 =>
        if (224 <=? b0) && (b0 <? 240) then
          if cont b1 && cont b2 && negb ((b0 =? 224) && (b1 <? 160)) && negb ((b0 =? 237) && (160 <=? b1))
          then Some ((b0 - 224) * 4096 + (b1 - 128) * 64 + (b2 - 128), r2) else None
        else match r2 with
        | b3 :: r3 =>
          if (240 <=? b0) && (b0 <? 245) then
            if cont b1 && cont b2 && cont b3 && negb ((b0 =? 240) && (b1 <? 144))
               && negb ((b0 =? 244) && (144 <=? b1))
            then Some ((b0 - 240) * 262144 + (b1 - 128) * 4096 + (b2 - 128) * 64 + (b3 - 128), r3)
            else None
          else None
        | [] => None
        end
      | [] => None
      end
    | [] => None
    end
  | [] => None
  end.
Fixpoint dec8 (fuel : nat) (b : list N) : option (list N) :=
  match b with
  | [] => Some []
  | _ :: _ =>
    match fuel with
    | O => None
    | S f =>
      match dec8_1 b with
      | Some (c, r) => match dec8 f r with Some cs => Some (c :: cs) | None => None end
      | None => None
      end
    end
  end.

(** One code point as UTF-16 / UTF-8 in the library. *)
Definition lib16 (c : N) : list N :=
  if c <? 65536 then [c] else [55232 + N.shiftr c 10; 56320 + N.land c 1023].
Definition lib8 (c : N) : list N :=
  if c <? 128 then [c]
  else if c <? 2048 then [192 + N.shiftr c 6; 128 + N.land c 63]
  else if c <? 65536 then [224 + N.shiftr c 12; 128 + N.land (N.shiftr c 6) 63; 128 + N.land c 63]
  else [240 + N.shiftr c 18; 128 + N.land (N.shiftr c 12) 63; 128 + N.land (N.shiftr c 6) 63;
        128 + N.land c 63].

(** [wstring_convert::from_bytes], GSString.cpp:2527-2529. *)
Definition from_bytes (b : list N) : option (list N) :=
  match dec8 (length b) b with Some cs => Some (flat_map lib16 cs) | None => None end.

(** Strict UTF-16 decoding: an unpaired surrogate is an error. *)
Fixpoint dec16 (l : list N) : option (list N) :=
  match l with
  | [] => Some []
  | u :: r =>
    if (u <? 55296) || (57344 <=? u) then
      match dec16 r with Some cs => Some (u :: cs) | None => None end
    else if u <? 56320 then
      match r with
      | v :: r' =>
        if (56320 <=? v) && (v <? 57344) then
          match dec16 r' with
          | Some cs => Some (65536 + (u - 55296) * 1024 + (v - 56320) :: cs)
          | None => None
          end
        else None
      | [] => None
      end
    else None
  end.

(** [wstring_convert::to_bytes], GSString.cpp:2410-2411. *)
Definition to_bytes (l : list N) : option (list N) :=
  match dec16 l with Some cs => Some (flat_map lib8 cs) | None => None end.

(** [SetStdUStrFromCharBuffer] on Linux, GSString.cpp:2493-2529: the source is cut at the first
    zero byte (2501-2502), then decoded. *)
Fixpoint upto_nul (b : list N) : list N :=
  match b with [] => [] | c :: r => if c =? 0 then [] else c :: upto_nul r end.
Definition set_from_chars (b : list N) : option (list N) := from_bytes (upto_nul b).

(** [PrepareCharBuffer] on Linux, GSString.cpp:2401-2416, for an object whose buffer currently has
    [size] bytes (0 = not allocated): the new buffer size and what it holds from its start
    (the text and its terminating zero). *)
Record charbuf := mkCharbuf { cb_size : N; cb_data : list N }.
Definition prepare_char_buffer (size : N) (l : list N) : option charbuf :=
  let len := nlen l * 4 + 1 in
  let size' := if size <? len then len else size in
  match to_bytes l with
  | None => None
  | Some str => Some (mkCharbuf size' (firstn (N.to_nat size') str ++ [0]))
  end.

(** [strlen] of the prepared buffer, then the copies into caller-supplied buffers:
    CopyInto(char* ), GSString.cpp:1569-1589; CopyInto(unsigned char* ), a Pascal string,
    GSString.cpp:1594-1616; CopyInto(UCChar* ), GSString.cpp:1621-1642.  The result is the list of
    bytes (units) written from the start of the destination; nothing is written for size 0. *)
Definition copy_into_char (l : list N) (bufSize : N) : option (list N) :=
  if bufSize =? 0 then Some [] else
  match prepare_char_buffer 0 l with
  | None => None
  | Some cb =>
    let txt := upto_nul (cb_data cb) in
    let len := if bufSize <=? nlen txt then bufSize - 1 else nlen txt in
    Some (firstn (N.to_nat len) txt ++ [0])
  end.
Definition copy_into_pascal (l : list N) (bufSize : N) : option (list N) :=
  if bufSize =? 0 then Some [] else
  match prepare_char_buffer 0 l with
  | None => None
  | Some cb =>
    let txt := upto_nul (cb_data cb) in
    let len := if bufSize - 1 <? nlen txt then bufSize - 1 else nlen txt in
    let len := if 255 <? len then 255 else len in
    Some (len :: firstn (N.to_nat len) txt)
  end.
Definition copy_into_ucchar (l : list N) (bufElemSize : N) : list N :=
  if bufElemSize =? 0 then [] else
  if nlen l <? bufElemSize then l ++ [0]
  else firstn (N.to_nat (bufElemSize - 1)) l ++ [0].
