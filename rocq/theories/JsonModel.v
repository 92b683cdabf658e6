(** JSON text: the parts of nlohmann::json 3.9.1 (src/mvrxchange/json.h) the message code uses.

    [parse] is [json::parse(first, last, nullptr, false, true)]: no callback, no exceptions, comments
    ignored; [None] is the discarded value.  [dump] is [dump()]: compact, no ASCII escaping, strict
    UTF-8.  Text and strings are lists of bytes 0..255.

    Simplified: a lexer position is the list of bytes not read yet ([unget] puts the byte back); end of
    input is the empty list.  Error messages are not modelled.  Binary values cannot arise from text
    and are left out. *)
From Coq Require Import List NArith ZArith String Lia Bool.
From Coq Require Import ZifyN ZifyNat ZifyBool.
From Verif Require Import Bytes Txt NumModel.
Import ListNotations.
Open Scope N_scope.

(** ** Values: json.h value_t.  A floating-point number is its sign and its magnitude as a fraction
    (already rounded to 53 bits).  An object is a std::map, so its entries are sorted by key. *)
Inductive json :=
| JNull
| JBool (b : bool)
| JInt (z : Z)
| JUns (n : N)
| JFloat (neg : bool) (mag : N * N)
| JStr (s : list N)
| JArr (l : list json)
| JObj (m : list (list N * json)).

(** std::less on std::string: lexicographic on unsigned bytes. *)
Fixpoint str_ltb (a b : list N) : bool :=
  match a, b with
  | _, [] => false
  | [], _ :: _ => true
  | x :: a', y :: b' => if x <? y then true else if y <? x then false else str_ltb a' b'
  end.
Fixpoint str_eqb (a b : list N) : bool :=
  match a, b with
  | [], [] => true
  | x :: a', y :: b' => (x =? y) && str_eqb a' b'
  | _, _ => false
  end.
(** std::map::operator[] followed by an assignment: json.h:5416 (key) and 5482-5485 (handle_value). *)
Fixpoint obj_set (m : list (list N * json)) (k : list N) (v : json) : list (list N * json) :=
  match m with
  | [] => [(k, v)]
  | (k', v') :: r =>
    if str_eqb k k' then (k', v) :: r
    else if str_ltb k k' then (k, v) :: m
    else (k', v') :: obj_set r k v
  end.
(** std::map::find, used by contains() and the const operator[] (json.h:20121-20131). *)
Fixpoint obj_get (m : list (list N * json)) (k : list N) : option json :=
  match m with
  | [] => None
  | (k', v) :: r => if str_eqb k k' then Some v else obj_get r k
  end.

(** ** Lexer *)
Inductive token :=
| TBeginArr | TEndArr | TBeginObj | TEndObj | TColon | TComma
| TTrue | TFalse | TNull
| TStr (s : list N) | TUns (n : N) | TInt (z : Z) | TFloat (neg : bool) (mag : N * N)
| TEnd | TErr.

(** [skip_whitespace], json.h:7322-7329. *)
Definition json_ws (c : N) : bool := (c =? 32) || (c =? 9) || (c =? 10) || (c =? 13).
Fixpoint skip_ws (b : list N) : list N :=
  match b with c :: r => if json_ws c then skip_ws r else b | [] => [] end.

(** [scan_comment], json.h:6714-6780, after the slash. *)
Fixpoint line_comment (b : list N) : list N :=
  match b with
  | [] => []
  | c :: r => if (c =? 10) || (c =? 13) || (c =? 0) then r else line_comment r
  end.
Fixpoint block_comment (b : list N) : option (list N) :=
  match b with
  | [] => None
  | c :: r =>
    if c =? 0 then None
    else if c =? 42 then
      match r with
      | d :: r' => if d =? 47 then Some r' else block_comment r
      | [] => None
      end
    else block_comment r
  end.
Definition scan_comment (b : list N) : option (list N) :=
  match b with
  | c :: r => if c =? 47 then Some (line_comment r) else if c =? 42 then block_comment r else None
  | [] => None
  end.
(** The beginning of [scan], json.h:7340-7353: white space and comments.  [None] = parse error. *)
Fixpoint skip_loop (fuel : nat) (b : list N) : option (list N) :=
  match fuel with
  | O => None
  | S f =>
    let b := skip_ws b in
    match b with
    | c :: r => if c =? 47 then
                  match scan_comment r with Some r' => skip_loop f r' | None => None end
                else Some b
    | [] => Some []
    end
  end.
Definition skip (b : list N) : option (list N) := skip_loop (S (List.length b)) b.

(** [scan_literal], json.h:7163-7176. *)
Fixpoint scan_literal (b lit : list N) (t : token) {struct lit} : token * list N :=
  match lit with
  | [] => (t, b)
  | l :: lit' =>
    match b with
    | c :: r => if c =? l then scan_literal r lit' t else (TErr, r)
    | [] => (TErr, [])
    end
  end.

(** [get_codepoint], json.h:6040-6074: four hexadecimal digits. *)
Definition hex_digit (c : N) : option N :=
  if (48 <=? c) && (c <=? 57) then Some (c - 48)
  else if (65 <=? c) && (c <=? 70) then Some (c - 55)
  else if (97 <=? c) && (c <=? 102) then Some (c - 87)
  else None.
Definition get_codepoint (b : list N) : option (N * list N) :=
  match b with
  | a1 :: a2 :: a3 :: a4 :: r =>
    match hex_digit a1, hex_digit a2, hex_digit a3, hex_digit a4 with
    | Some d1, Some d2, Some d3, Some d4 =>
      Some (N.shiftl d1 12 + N.shiftl d2 8 + N.shiftl d3 4 + d4, r)
    | _, _, _, _ => None
    end
  | _ => None
  end.
(** json.h:6238-6268: the UTF-8 bytes of a code point. *)
Definition put_cp (c : N) : list N :=
  if c <? 128 then [c]
  else if c <=? 2047 then [N.lor 192 (N.shiftr c 6); N.lor 128 (N.land c 63)]
  else if c <=? 65535 then
    [N.lor 224 (N.shiftr c 12); N.lor 128 (N.land (N.shiftr c 6) 63); N.lor 128 (N.land c 63)]
  else
    [N.lor 240 (N.shiftr c 18); N.lor 128 (N.land (N.shiftr c 12) 63);
     N.lor 128 (N.land (N.shiftr c 6) 63); N.lor 128 (N.land c 63)].
(** The escape u, json.h:6184-6273: the bytes added and the rest. *)
Definition scan_u (b : list N) : option (list N * list N) :=
  match get_codepoint b with
  | None => None
  | Some (c1, r) =>
    if (55296 <=? c1) && (c1 <=? 56319) then
      match r with
      | s :: u :: r2 =>
        if (s =? 92) && (u =? 117) then
          match get_codepoint r2 with
          | None => None
          | Some (c2, r3) =>
            if (56320 <=? c2) && (c2 <=? 57343) then
              Some (put_cp (N.shiftl c1 10 + c2 - 56613888), r3)
            else None
          end
        else None
      | _ => None
      end
    else if (56320 <=? c1) && (c1 <=? 57343) then None
    else Some (put_cp c1, r)
  end.
(** The escapes, json.h:6146-6283. *)
Definition scan_escape (b : list N) : option (list N * list N) :=
  match b with
  | [] => None
  | c :: r =>
    if c =? 34 then Some ([34], r)
    else if c =? 92 then Some ([92], r)
    else if c =? 47 then Some ([47], r)
    else if c =? 98 then Some ([8], r)
    else if c =? 102 then Some ([12], r)
    else if c =? 110 then Some ([10], r)
    else if c =? 114 then Some ([13], r)
    else if c =? 116 then Some ([9], r)
    else if c =? 117 then scan_u r
    else None
  end.
(** [next_byte_in_range], json.h:6089-6109. *)
Fixpoint in_ranges (b : list N) (rs : list (N * N)) {struct rs} : option (list N * list N) :=
  match rs with
  | [] => Some ([], b)
  | (lo, hi) :: rs' =>
    match b with
    | c :: r => if (lo <=? c) && (c <=? hi) then
                  match in_ranges r rs' with Some (a, r') => Some (c :: a, r') | None => None end
                else None
    | [] => None
    end
  end.
(** The ranges after a lead byte, json.h:6458-6705; [None] = ill-formed lead byte or control
    character (json.h:6288-6455). *)
Definition lead_ranges (c : N) : option (list (N * N)) :=
  if c <? 32 then None
  else if c <=? 127 then Some []
  else if (194 <=? c) && (c <=? 223) then Some [(128, 191)]
  else if c =? 224 then Some [(160, 191); (128, 191)]
  else if ((225 <=? c) && (c <=? 236)) || (c =? 238) || (c =? 239) then Some [(128, 191); (128, 191)]
  else if c =? 237 then Some [(128, 159); (128, 191)]
  else if c =? 240 then Some [(144, 191); (128, 191); (128, 191)]
  else if (241 <=? c) && (c <=? 243) then Some [(128, 191); (128, 191); (128, 191)]
  else if c =? 244 then Some [(128, 143); (128, 191); (128, 191)]
  else None.
(** [scan_string], json.h:6111-6709, after the opening quote. *)
Fixpoint scan_string_loop (fuel : nat) (b acc : list N) : option (list N * list N) :=
  match fuel with
  | O => None
  | S f =>
    match b with
    | [] => None
    | c :: r =>
      if c =? 34 then Some (acc, r)
      else if c =? 92 then
        match scan_escape r with
        | Some (s, r') => scan_string_loop f r' (acc ++ s)
        | None => None
        end
      else
        match lead_ranges c with
        | None => None
        | Some rs =>
          match in_ranges r rs with
          | Some (s, r') => scan_string_loop f r' (acc ++ c :: s)
          | None => None
          end
        end
    end
  end.
Definition scan_string (b : list N) : token * list N :=
  match scan_string_loop (S (List.length b)) b [] with
  | Some (s, r) => (TStr s, r)
  | None => (TErr, [])
  end.

(** [scan_number], json.h:6843-7160.  The state machine: sign, integer part (a zero or digits not
    beginning with zero), fraction, exponent. *)
Fixpoint span_digits (b : list N) : list N * list N :=
  match b with
  | c :: r => if is_digit c then let (d, r') := span_digits r in (c :: d, r') else ([], b)
  | [] => ([], [])
  end.
Definition dval (d : list N) : N := digits_val d 0.
Definition scan_int_part (b : list N) : option (list N * list N) :=
  match b with
  | c :: r =>
    if c =? 48 then Some ([48], r)
    else if is_digit c then Some (span_digits b)
    else None
  | [] => None
  end.
(** Fraction digits (if any): [None] = a point not followed by a digit. *)
Definition scan_frac (b : list N) : option (option (list N) * list N) :=
  match b with
  | c :: r =>
    if c =? 46 then
      match span_digits r with ([], _) => None | (d, r') => Some (Some d, r') end
    else Some (None, b)
  | [] => Some (None, [])
  end.
(** Exponent, if any. *)
Definition scan_exp (b : list N) : option (option Z * list N) :=
  match b with
  | c :: r =>
    if (c =? 101) || (c =? 69) then
      let '(sg, r1) := match r with
                       | s :: r1 => if s =? 45 then ((-1)%Z, r1) else if s =? 43 then (1%Z, r1) else (1%Z, r)
                       | [] => (1%Z, [])
                       end in
      match span_digits r1 with ([], _) => None | (d, r') => Some (Some (sg * Z.of_N (dval d))%Z, r') end
    else Some (None, b)
  | [] => Some (None, [])
  end.
(** strtod on a decimal: digits times a power of ten, rounded; [None] = not finite (HUGE_VAL). *)
Definition dec_float (digits : N) (e : Z) : option (N * N) :=
  let q := rnd (if (e <? 0)%Z then (digits, 10 ^ Z.to_N (- e)) else (digits * 10 ^ Z.to_N e, 1)) in
  if 2 ^ 1024 * snd q <=? fst q then None else Some q.
(** A float token that is not finite is rejected in sax_parse_internal, json.h:10349-10357. *)
Definition float_token (neg : bool) (i : list N) (f : option (list N)) (e : option Z) : token :=
  let fd := match f with Some d => d | None => [] end in
  let ev := match e with Some z => z | None => 0%Z end in
  match dec_float (dval (i ++ fd)) (ev - Z.of_nat (List.length fd)) with
  | Some q => TFloat neg q
  | None => TErr
  end.
Definition scan_number (b : list N) : token * list N :=
  let '(neg, b1) := match b with c :: r => if c =? 45 then (true, r) else (false, b) | [] => (false, b) end in
  match scan_int_part b1 with
  | None => (TErr, b1)
  | Some (i, b2) =>
    match scan_frac b2 with
    | None => (TErr, b2)
    | Some (f, b3) =>
      match scan_exp b3 with
      | None => (TErr, b3)
      | Some (e, b4) =>
        match f, e with
        | None, None =>
          if neg then
            if dval i <=? 2 ^ 63 then (TInt (- Z.of_N (dval i)), b4) else (float_token neg i f e, b4)
          else
            if dval i <? 2 ^ 64 then (TUns (dval i), b4) else (float_token neg i f e, b4)
        | _, _ => (float_token neg i f e, b4)
        end
      end
    end
  end.

(** [scan], json.h:7331-7417, after the byte order mark. *)
Definition scan (b : list N) : token * list N :=
  match skip b with
  | None => (TErr, [])
  | Some [] => (TEnd, [])
  | Some (c :: r) =>
    if c =? 91 then (TBeginArr, r)
    else if c =? 93 then (TEndArr, r)
    else if c =? 123 then (TBeginObj, r)
    else if c =? 125 then (TEndObj, r)
    else if c =? 58 then (TColon, r)
    else if c =? 44 then (TComma, r)
    else if c =? 116 then scan_literal r (T"rue") TTrue
    else if c =? 102 then scan_literal r (T"alse") TFalse
    else if c =? 110 then scan_literal r (T"ull") TNull
    else if c =? 34 then scan_string r
    else if (c =? 45) || is_digit c then scan_number (c :: r)
    else if c =? 0 then (TEnd, r)
    else (TErr, r)
  end.
(** [skip_bom], json.h:7307-7320. *)
Definition skip_bom (b : list N) : option (list N) :=
  match b with
  | c :: r => if c =? 239 then
                match r with
                | d :: e :: r' => if (d =? 187) && (e =? 191) then Some r' else None
                | _ => None
                end
              else Some b
  | [] => Some []
  end.

(** ** Parser: sax_parse_internal, json.h:10285-10560, with json_sax_dom_parser (5328-5500) as its
    handler.  The stack of open containers holds their contents so far and, for an object, the key the
    next value is stored under. *)
Inductive frame := FArr (l : list json) | FObj (m : list (list N * json)) (k : list N).
Inductive pstate :=
| SValue (t : token) (b : list N) (st : list frame)      (* the switch on last_token *)
| SAfter (v : json) (b : list N) (st : list frame).      (* a value is complete *)
Inductive presult := PDone (v : json) (b : list N) | PErr | PFuel.

(** The key and the colon of an object entry; then the token of the value. *)
Definition parse_key (t : token) (b : list N) (m : list (list N * json)) (st : list frame) : pstate + presult :=
  match t with
  | TStr k =>
    match scan b with
    | (TColon, b1) => let (t2, b2) := scan b1 in inl (SValue t2 b2 (FObj m k :: st))
    | _ => inr PErr
    end
  | _ => inr PErr
  end.
Definition pstep (s : pstate) : pstate + presult :=
  match s with
  | SValue t b st =>
    match t with
    | TBeginObj =>
      match scan b with
      | (TEndObj, b1) => inl (SAfter (JObj []) b1 st)
      | (t1, b1) => parse_key t1 b1 [] st
      end
    | TBeginArr =>
      match scan b with
      | (TEndArr, b1) => inl (SAfter (JArr []) b1 st)
      | (t1, b1) => inl (SValue t1 b1 (FArr [] :: st))
      end
    | TFloat neg q => inl (SAfter (JFloat neg q) b st)
    | TFalse => inl (SAfter (JBool false) b st)
    | TTrue => inl (SAfter (JBool true) b st)
    | TNull => inl (SAfter JNull b st)
    | TInt z => inl (SAfter (JInt z) b st)
    | TUns n => inl (SAfter (JUns n) b st)
    | TStr s => inl (SAfter (JStr s) b st)
    | _ => inr PErr
    end
  | SAfter v b st =>
    match st with
    | [] => inr (PDone v b)
    | FArr l :: st' =>
      match scan b with
      | (TComma, b1) => let (t2, b2) := scan b1 in inl (SValue t2 b2 (FArr (l ++ [v]) :: st'))
      | (TEndArr, b1) => inl (SAfter (JArr (l ++ [v])) b1 st')
      | _ => inr PErr
      end
    | FObj m k :: st' =>
      match scan b with
      | (TComma, b1) => let (t2, b2) := scan b1 in parse_key t2 b2 (obj_set m k v) st'
      | (TEndObj, b1) => inl (SAfter (JObj (obj_set m k v)) b1 st')
      | _ => inr PErr
      end
    end
  end.
Fixpoint prun (fuel : nat) (s : pstate) : presult :=
  match fuel with
  | O => PFuel
  | S f => match pstep s with inl s' => prun f s' | inr r => r end
  end.
(** [parse], json.h:10196-10246 (strict); [None] = discarded.  The fuel is enough for every input
    (JsonProofs: parse_fuel). *)
Definition parse_run (b : list N) : presult :=
  match skip_bom b with
  | None => PErr
  | Some b0 => let (t, b1) := scan b0 in prun (2 * List.length b + 4) (SValue t b1 [])
  end.
Definition parse (b : list N) : option json :=
  match parse_run b with
  | PDone v r => match scan r with (TEnd, _) => Some v | _ => None end
  | _ => None
  end.

(** ** Serializer *)
(** [decode], json.h:16298-16333: the table and the step. *)
Definition utf8d : list N :=
  repeat 0 128 ++ repeat 1 16 ++ repeat 9 16 ++ repeat 7 32 ++ repeat 8 2 ++ repeat 2 30 ++
  [10; 3; 3; 3; 3; 3; 3; 3; 3; 3; 3; 3; 3; 4; 3; 3] ++
  [11; 6; 6; 6; 5; 8; 8; 8; 8; 8; 8; 8; 8; 8; 8; 8] ++
  [0; 1; 2; 3; 5; 8; 7; 1; 1; 1; 4; 6; 1; 1; 1; 1] ++
  [1; 1; 1; 1; 1; 1; 1; 1; 1; 1; 1; 1; 1; 1; 1; 1; 1; 0; 1; 1; 1; 1; 1; 0; 1; 0; 1; 1; 1; 1; 1; 1] ++
  [1; 2; 1; 1; 1; 1; 1; 2; 1; 2; 1; 1; 1; 1; 1; 1; 1; 1; 1; 1; 1; 1; 1; 2; 1; 1; 1; 1; 1; 1; 1; 1] ++
  [1; 2; 1; 1; 1; 1; 1; 1; 1; 2; 1; 1; 1; 1; 1; 1; 1; 1; 1; 1; 1; 1; 1; 3; 1; 3; 1; 1; 1; 1; 1; 1] ++
  [1; 3; 1; 1; 1; 1; 1; 3; 1; 3; 1; 1; 1; 1; 1; 1; 1; 3; 1; 1; 1; 1; 1; 1; 1; 1; 1; 1; 1; 1; 1; 1].
Definition d_type (byte : N) : N := nth (N.to_nat byte) utf8d 0.
Definition d_next (state type : N) : N := nth (N.to_nat (256 + state * 16 + type)) utf8d 0.
Definition d_code (state codep byte : N) : N :=
  if state =? 0 then N.land (N.shiftr 255 (d_type byte)) byte
  else N.lor (N.land byte 63) (N.shiftl codep 6 mod two32).

(** "u%04x" after a backslash. *)
Definition hex1 (d : N) : N := if d <? 10 then 48 + d else 87 + d.
Definition u_escape (c : N) : list N :=
  [92; 117; hex1 (c / 4096 mod 16); hex1 (c / 256 mod 16); hex1 (c / 16 mod 16); hex1 (c mod 16)].
(** The switch on an accepted code point, json.h:15799-15884: [byte] is its last byte. *)
Definition esc_accept (codep byte : N) : list N :=
  if codep =? 8 then [92; 98]
  else if codep =? 9 then [92; 116]
  else if codep =? 10 then [92; 110]
  else if codep =? 12 then [92; 102]
  else if codep =? 13 then [92; 114]
  else if codep =? 34 then [92; 34]
  else if codep =? 92 then [92; 92]
  else if codep <=? 31 then u_escape codep
  else [byte].
(** [dump_escaped], json.h:15784-16061, strict error handler: [None] = type_error 316.  The output
    buffer of 512 bytes is flushed before it can overflow and not modelled. *)
Fixpoint esc_loop (state codep : N) (s : list N) : option (list N) :=
  match s with
  | [] => if state =? 0 then Some [] else None
  | byte :: r =>
    let codep' := d_code state codep byte in
    let state' := d_next state (d_type byte) in
    if state' =? 1 then None
    else
      match esc_loop state' codep' r with
      | None => None
      | Some t => if state' =? 0 then Some (esc_accept codep' byte ++ t) else Some (byte :: t)
      end
  end.
Definition dump_escaped (s : list N) : option (list N) := esc_loop 0 0 s.

(** [dump], json.h:15526-15760.  Integers are written in decimal (json.h:16107-16176).
    Floating-point numbers (dump_float) are not modelled: no value the project dumps contains one. *)
Inductive dumped := DText (t : list N) | DThrow | DFloat.
Definition dapp (a b : dumped) : dumped :=
  match a with
  | DText x => match b with DText y => DText (x ++ y) | e => e end
  | e => e
  end.
Definition dstr (s : list N) : dumped :=
  match dump_escaped s with Some t => DText (34 :: t ++ [34]) | None => DThrow end.
Fixpoint dump (j : json) : dumped :=
  match j with
  | JNull => DText (T"null")
  | JBool true => DText (T"true")
  | JBool false => DText (T"false")
  | JInt z => DText (int_text z)
  | JUns n => DText (dec n)
  | JFloat _ _ => DFloat
  | JStr s => dstr s
  | JArr [] => DText (T"[]")
  | JArr (x :: l) =>
    dapp (DText [91])
      (dapp (dump x)
         (dapp ((fix els l := match l with
                              | [] => DText []
                              | y :: l' => dapp (DText [44]) (dapp (dump y) (els l'))
                              end) l)
            (DText [93])))
  | JObj [] => DText (T"{}")
  | JObj ((k, x) :: m) =>
    dapp (DText [123])
      (dapp (dstr k) (dapp (DText [58]) (dapp (dump x)
         (dapp ((fix els m := match m with
                              | [] => DText []
                              | (k', y) :: m' =>
                                dapp (DText [44]) (dapp (dstr k') (dapp (DText [58]) (dapp (dump y) (els m'))))
                              end) m)
            (DText [125])))))
  end.

(** A document as text, parsed and dumped again. *)
Example parse_ex : parse (T"{ ""b"" : [1, -2, true, null], // c
 ""a"":""xä\n😀"" /* d */}")
  = Some (JObj [(T"a", JStr [120; 195; 164; 10; 240; 159; 152; 128]);
                (T"b", JArr [JUns 1; JInt (-2); JBool true; JNull])]).
Proof. vm_compute. reflexivity. Qed.
Example dump_ex : dump (JObj [(T"a", JStr [120; 195; 164; 10; 7]); (T"b", JArr [JUns 1; JInt (-2); JArr []])])
  = DText (T"{""a"":""x" ++ [195; 164] ++ T"\n\u0007"",""b"":[1,-2,[]]}").
Proof. vm_compute. reflexivity. Qed.
Example parse_dup : parse (T"{""a"":1,""a"":2}") = Some (JObj [(T"a", JUns 2)]). Proof. vm_compute. reflexivity. Qed.
Example parse_bad : parse (T"{""a"":1,}") = None /\ parse (T"01") = None /\ parse [34; 195; 34] = None
  /\ parse (T"") = None /\ parse (T"1 2") = None /\ parse (T"[1") = None /\ parse (T"1.") = None.
Proof. vm_compute. repeat split. Qed.
Example parse_float : exists q, parse (T"-1.5e1") = Some (JFloat true q) /\ fst q = 15 * snd q.
Proof. eexists. vm_compute. split; reflexivity. Qed.
