(** Attribute converters of XmlFileHelper.cpp for numbers, lists, dates and identifiers.

    A reader gives the new value of its output variable(s), the returned bool and how many parsing
    errors it added (SceneData::GdtfFixture::AddError); ASSERTN and DSTOP only print
    (Prefix/StdAfx.h:35-39). *)
From Coq Require Import List NArith ZArith String Lia Bool.
From Coq Require Import ZifyN ZifyNat ZifyBool.
From Verif Require Import Bytes Txt UtfModel StringModel UuidModel NumModel.
Import ListNotations.
Open Scope N_scope.

Definition is_empty (s : list N) : bool := match s with [] => true | _ :: _ => false end.
Record rd_res (A : Type) := mkRd { rd_val : A; rd_ok : bool; rd_errs : N }.
Arguments mkRd {A}. Arguments rd_val {A}. Arguments rd_ok {A}. Arguments rd_errs {A}.

(** ** Integers *)
(** [ConvertInteger(Sint32)] 395-400, [ConvertInteger(Uint32)] 403-408. *)
Definition write_int (v : Z) : list N := int_text v.
(** [ConvertInteger(size_t)] 570-575: through itoa, i.e. as Sint64. *)
Definition write_size (v : N) : list N := itoa (Z.of_N v).
(** [ConvertInteger(text, node, T&)], 420-459: atoi, then the conversion [cast] to the type. *)
Definition read_int {A} (cast : Z -> A) (old : A) (s : list N) : res (rd_res A) :=
  if is_empty s then Ok (mkRd old false 0) else do z <- atoi s; Ok (mkRd (cast z) true 0).
Definition as_sint32 (z : Z) : Z := z.
Definition as_sint8 : Z -> Z := to_signed 8.
Definition as_uint8 : Z -> N := to_unsigned 8.
Definition as_uint32 : Z -> N := to_unsigned 32.
Definition as_size_t : Z -> N := to_unsigned 64.
(** [ConvertDmxBreak], 577-586 and 411-418. *)
Definition write_break (v : Z) : list N := if (v =? 0)%Z then T"Overwrite" else write_int v.
Definition read_break (old : Z) (s : list N) : res (rd_res Z) :=
  if is_empty s then Ok (mkRd old false 0)
  else if txeq s T"Overwrite" then Ok (mkRd 0%Z true 0)
  else do z <- atoi s; Ok (mkRd z true 0).

(** ** Lists *)
(** [Deserialize] for integers, 2347-2371: cut at the separator while its position is above 0. *)
Fixpoint deserialize (fuel : nat) (s : list N) (sep : N) (arr : list Z) : res (list Z) :=
  match fuel with
  | O => Loop
  | S f =>
    match tx_find_ch s sep 0 false with
    | Some (N.pos p) =>
      do z <- atoi (map (fun i => get_at s i) (seq 0 (Pos.to_nat p)));
      deserialize f (delete s 0 (N.pos p + 1)) sep (arr ++ [z])
    | _ => do z <- atoi s; Ok (arr ++ [z])
    end
  end.
Definition deser (s : list N) (sep : N) (arr : list Z) : res (list Z) :=
  deserialize (S (List.length s)) s sep arr.

(** [ConvertIntegerArray], 487-510. *)
Fixpoint join_with (sep : list N) (l : list (list N)) : list N :=
  match l with [] => [] | [x] => x | x :: r => x ++ sep ++ join_with sep r end.
Definition write_list (l : list Z) (brackets : bool) : list N :=
  (if brackets then T"{" else []) ++ join_with T"," (map int_text l) ++ (if brackets then T"}" else []).
Definition replace1 (s : list N) (c : N) : res (list N) :=   (* Replace(c, "") *)
  match replace (S (List.length s)) s [c] [] false with Done r => Ok r | NoEnd => Loop | Throw => Exc end.
(** 512-526; the values are appended to the array. *)
Definition read_list (arr : list Z) (s : list N) : res (rd_res (list Z)) :=
  if is_empty s then Ok (mkRd arr false 0) else
  do s1 <- replace1 s 123; do s2 <- replace1 s1 125;
  do a <- deser s2 44 arr; Ok (mkRd a true 0).

(** [ConvertDmxOffset], 1437-1447 and 1449-1471. *)
Definition write_offset (o : N * N * N * N) : list N :=
  let '(coarse, fine, ultra, uber) := o in
  let step (st : bool * list Z) (v : N) : bool * list Z :=
    if fst st && (0 <? v) then (true, snd st ++ [Z.of_N v]) else (false, snd st) in
  write_list (snd (fold_left step [coarse; fine; ultra; uber] (true, []))) false.
Definition read_offset (s : list N) : res (rd_res (N * N * N * N)) :=
  do r <- read_list [] s;
  if rd_ok r then
    let at_ i := match nth_error (rd_val r) i with Some z => to_unsigned 16 z | None => 0 end in
    Ok (mkRd (at_ 0%nat, at_ 1%nat, at_ 2%nat, at_ 3%nat) true 0)
  else Ok (mkRd (0, 0, 0, 0) false 0).

(** ** Dates *)
Record stime := mkTime { fYear : N; fMonth : N; fDay : N; fHour : N; fMinute : N; fSecond : N }.
(** [IntToString2Digits], 181-192. *)
Definition two_digits (v : Z) : list N := if (v <? 10)%Z then T"0" ++ itoa v else itoa v.
(** [ConvertDate], 194-215. *)
Definition write_date (d : stime) : list N :=
  itoa (Z.of_N (fYear d)) ++ T"-" ++ two_digits (Z.of_N (fMonth d)) ++ T"-" ++ two_digits (Z.of_N (fDay d))
  ++ T"T" ++ two_digits (Z.of_N (fHour d)) ++ T":" ++ two_digits (Z.of_N (fMinute d)) ++ T":"
  ++ two_digits (Z.of_N (fSecond d)).
(** [DeserializeUTC_Date], 2373-2413. *)
Definition deser_date (s : list N) : res (list Z) :=
  match tx_find s T"T" 0 false with
  | Some (N.pos p) =>
    let cal := map (get_at s) (seq 0 (Pos.to_nat p)) in
    let clock := map (get_at s) (seq (S (Pos.to_nat p)) (List.length s - S (Pos.to_nat p))) in
    do c <- deser cal 45 [];
    do t <- deser clock 58 [];
    Ok (if ((List.length t =? 3) && (List.length c =? 3))%nat then c ++ t else [])
  | _ => Ok []
  end.
(** 217-249. *)
Definition zero_time : stime := mkTime 0 0 0 0 0 0.
Definition read_date (s : list N) : res (rd_res stime) :=
  if is_empty s then Ok (mkRd zero_time true 0) else
  do a <- deser_date s;
  match map (to_unsigned 16) a with
  | [y; mo; d; h; mi; se] => Ok (mkRd (mkTime y mo d h mi se) true 0)
  | _ => Ok (mkRd zero_time false 1)
  end.

(** ** Hexadecimal values *)
(** [ConvertHexValue(size_t)], 2697-2744. *)
Definition hex_char (d : N) : N := if d <? 10 then 48 + d else 55 + d.
Fixpoint hex_loop (fuel : nat) (v : N) (out : list N) : list N :=
  match fuel with
  | O => out
  | S f =>
    if 0 <? v then
      let cCode := v mod 16 in
      hex_loop f ((v - cCode) / 16) (insert out 2 [hex_char cCode])
    else out
  end.
Definition write_hex (v : N) : list N :=
  if 65535 <? v then T"0xFFFF" else if v =? 0 then T"0x0" else hex_loop 17 v T"0x".
(** [ConvertHexValue(text)], 2646-2695; the running value is a size_t.  Mid(2) takes all the rest. *)
Definition hex_fact (c : N) : option N :=
  if (48 <=? c) && (c <=? 57) then Some (c - 48)
  else if (65 <=? c) && (c <=? 70) then Some (c - 55) else None.
Fixpoint hex_read_loop (s : list N) (v : N) : bool * N :=
  match s with
  | [] => (true, v)
  | c :: r =>
    let v := (v * 16) mod two64 in
    match hex_fact c with
    | Some f => hex_read_loop r ((v + f) mod two64)
    | None => (false, v)
    end
  end.
Definition read_hex (s : list N) : rd_res N :=
  let fin v errs := if 65535 <? v then mkRd 65535 false (errs + 1) else mkRd v true errs in
  if equal (left s 2) T"0x" then
    let '(ok, v) := hex_read_loop (make_upper (mid s 2 (nlen s))) 0 in
    if ok then fin v 0 else mkRd v false 1
  else if is_empty s then fin 0 0 else fin 0 1.

(** ** Identifiers *)
(** [ConvertUUID(VWUUID)], 18-34. *)
Definition write_uuid (u : list N) : list N := to_string u false.
(** The text handed to the parser, 40-101 and 115-169 ([None]: the reader returns false).
    Out-of-range [operator[]] gives 0. *)
Definition uuid_input (s : list N) : res (option (list N)) :=
  if nlen s =? 47 then
    do v <- replace1 s 32;
    let ch a n := map (get_at v) (seq a n) in
    Ok (Some ([123] ++ ch 0%nat 8%nat ++ [45] ++ ch 8%nat 4%nat ++ [45] ++ ch 12%nat 4%nat ++ [45]
              ++ ch 16%nat 4%nat ++ [45] ++ ch 20%nat 12%nat ++ [125]))
  else if nlen s =? 36 then Ok (Some ([123] ++ s ++ [125]))
  else if nlen s =? 0 then Ok None
  else Ok (Some []).
(** [ConvertUUID(text, node, VWUUID&)], 36-108, for a variable holding [old]. *)
Definition read_uuid (old : list N) (s : list N) : res (rd_res (list N)) :=
  do t <- uuid_input s;
  match t with
  | None => Ok (mkRd old false 0)
  | Some t =>
    match uuid_of_text zero_uuid t with
    | Some u => Ok (mkRd u true (if is_empty t then 1 else 0))
    | None => Exc
    end
  end.
(** [ConvertUUID(text, MvrUUID&)], 111-179: the words of a VWUUID that starts as zero. *)
Definition read_mvr_uuid (wraps : bool) (old : N * N * N * N) (s : list N) : res (rd_res (N * N * N * N)) :=
  do t <- uuid_input s;
  match t with
  | None => Ok (mkRd old false 0)
  | Some t =>
    match from_string zero_uuid t true with
    | None => Exc
    | Some (r, u) =>
      match get_words wraps u with
      | Some w => Ok (mkRd w r 0)
      | None => UB
      end
    end
  end.

(** ** DMX addresses *)
(** [ConvertDMXAdress], 588-596: DMXAddress is Uint16, promoted to Sint32. *)
Definition write_address (a : N) : list N := write_int (Z.of_N a).
(** 607-645. *)
Definition read_address (s : list N) : res (rd_res N) :=
  if is_empty s then Ok (mkRd 1 false 0) else
  do r <- match tx_find_ch s 46 0 false with
    | Some (N.pos p) =>
      do zu <- atoi (left s (N.pos p));
      do za <- atoi (right s (nlen s - N.pos p - 1));
      let universe := to_unsigned 16 zu in
      let address := to_unsigned 16 za in
      Ok (to_unsigned 16 ((Z.of_N universe - 1) * 512 + Z.of_N address),
          (universe <=? 0) || (address <=? 0) || (512 <? address))
    | _ => do z <- atoi s; let v := to_unsigned 16 z in Ok (v, v <=? 0)
    end;
  let '(v, error) := r in
  Ok (mkRd v (negb error) (if error then 1 else 0)).

(** ** DMX values *)
(** [GetChannelMaxDmx], 2503-2519: for a number that is no enumerator the subtraction wraps. *)
Definition max_dmx (reso : N) : N :=
  let maxVal := match reso with 1 => 256 | 2 => 65536 | 3 => 16777216 | 4 => 4294967296 | _ => 0 end in
  (maxVal + two64 - 1) mod two64.
(** [ConvertDMXValue(DmxValue, reso, noneValue)], 462-474. *)
Definition write_dmx (v reso : N) (noneValue : bool) : list N :=
  if noneValue then T"None" else itoa (Z.of_N v) ++ T"/" ++ itoa (Z.of_N reso).
(** [SplitStr], 647-677, without the split position. *)
Definition split_at (s : list N) (pos : N) : list N * list N :=
  (firstn (N.to_nat pos) s, skipn (N.to_nat (pos + 1)) s).
(** Shift of a Uint64 by a number of bits; undefined for 64 and more. *)
Definition shift64 (v : N) (shift : Z) : res N :=
  if (64 <=? Z.abs shift)%Z then UB
  else if (0 <=? shift)%Z then Ok (N.shiftl v (Z.to_N shift) mod two64)
  else Ok (N.shiftr v (Z.to_N (- shift))).
Definition int32_ok (z : Z) : bool := ((- 2147483648 <=? z) && (z <=? 2147483647))%Z.
Definition to_u64 (x : N * N) : res N := match d_to_u64 x with Some v => Ok v | None => UB end.
(** [ConvertDMXValue(text, node, reso, DmxValue&)], 679-773, for a variable holding [old].  [atof] of
    a decimal integer is the nearest double; of any other text it is not used. *)
Definition read_dmx (old : N) (s : list N) (reso : N) : res (rd_res N) :=
  if is_empty s then Ok (mkRd 0 true 0) else
  match tx_find s T"/" 0 false with
  | None => Ok (mkRd old false 1)
  | Some splitPos =>
    let '(first, second) := split_at s splitPos in
    let byteShifting := last second 0 =? 115 in
    let second := if byteShifting then truncate second (nlen second - 1) else second in
    match to_bytes first with None => Exc | Some fb =>
    do byteSpecifier <- atoi second;
    do complete <- (do a <- is_complete_number first; if a then is_complete_number second else Ok false);
    let '(raw, byteSpecifier, errs) :=
      if complete then (d_of_N (digits_val fb 0), byteSpecifier, 0) else ((0, 1), 1%Z, 1) in
    do v <- to_u64 raw;
    do v <-
      if (byteSpecifier =? Z.of_N reso)%Z then to_u64 raw
      else if byteShifting then
        if int32_ok (8 * (Z.of_N reso - byteSpecifier)) then shift64 v (8 * (Z.of_N reso - byteSpecifier)) else UB
      else
        let maxResolution := max_dmx (to_unsigned 32 byteSpecifier) in
        let maxChannelUnit := max_dmx reso in
        let percentage := d_div raw (d_of_N maxResolution) in
        let result := d_mul percentage (d_of_N maxChannelUnit) in
        do v <- to_u64 (d_add result (1, 2));
        Ok (if maxChannelUnit <? v then maxChannelUnit else v);
    if max_dmx reso <? v then Ok (mkRd v false (errs + 1)) else Ok (mkRd v true errs)
    end
  end.
(** 775-789: the overload with "None". *)
Definition read_dmx_none (old : N) (s : list N) (reso : N) : res (bool * rd_res N) :=
  if txeq s T"None" then Ok (true, mkRd old true 0)
  else do r <- read_dmx old s reso; Ok (false, mkRd (rd_val r) true (rd_errs r)).
