(** DNS messages of the service discovery: mdns_cpp/src/mdns.h and mdns_cpp/src/mdns.cpp.

    A buffer is the list of its bytes; its length is the number of bytes allocated.  Bytes after the
    received ones are whatever the buffer held before.  Reading at a position outside the buffer, or
    writing outside the send buffer, is [UB].  A size_t that is used as "no position"
    (MDNS_INVALID_POS) is an option.  Positions stay far below 2^64 (a message has at most 3 * 65535
    records of at most 65545 bytes), so sums are not reduced; the one subtraction that can wrap is.  The
    casts to uint16_t* of odd addresses are read as byte accesses.  Sockets are not modelled: a message
    that is sent is the result of the function that builds it. *)
From Coq Require Import List NArith ZArith String Bool.
From Verif Require Import Bytes Txt NumModel JsonModel ServiceModel.
Import ListNotations.
Open Scope N_scope.

(** ** Reading memory.  ntohs and ntohl of a value in memory are the big-endian value. *)
Definition rd8 (m : list N) (i : N) : res N :=
  match nth_error m (N.to_nat i) with Some b => Ok b | None => UB end.
Definition rd16 (m : list N) (i : N) : res N := do a <- rd8 m i; do b <- rd8 m (i + 1); Ok (256 * a + b).
Definition rd32 (m : list N) (i : N) : res N := do a <- rd16 m i; do b <- rd16 m (i + 2); Ok (65536 * a + b).
(** memcpy, or the std::string constructor, from the buffer. *)
Definition rd_bytes (m : list N) (i n : N) : res (list N) :=
  if nlen m <? i + n then UB else Ok (slice i n m).

(** ** Names, mdns.h:401-527 *)
(** mdns_is_string_ref, 401-404. *)
Definition is_ref (b : N) : bool := N.land b 192 =? 192.
(** mdns_string_pair_t, 102-106. *)
Record part := mkPart { pOff : N; pLen : N; pRef : bool }.
(** mdns_get_next_substring, 406-433. *)
Definition next_part (m : list N) (size off : N) : res (option part) :=
  do b <- rd8 m off;
  if b =? 0 then Ok (Some (mkPart off 0 false))
  else if is_ref b then
    if size <? off + 2 then Ok None else
    do w <- rd16 m off;
    let t := N.land 16383 w in
    if size <=? t then Ok None else
    do n <- rd8 m t;
    if size <? t + 1 + n then Ok None else Ok (Some (mkPart (t + 1) n true))
  else if size <? off + 1 + b then Ok None else Ok (Some (mkPart (off + 1) b false)).
(** mdns_string_skip, 435-452: the position behind the name, [None] if it returns 0. *)
Fixpoint skip_loop (fuel : nat) (m : list N) (size cur : N) : res (option N) :=
  match fuel with
  | O => Loop
  | S f =>
    do p <- next_part m size cur;
    match p with
    | None => Ok None
    | Some p =>
      if pRef p then Ok (Some (cur + 2))
      else if pLen p =? 0 then Ok (Some (pOff p + pLen p + 1))
      else skip_loop f m size (pOff p + pLen p)
    end
  end.
Definition name_skip (m : list N) (size off : N) : res (option N) := skip_loop (S (S (N.to_nat size))) m size off.
(** strncasecmp on two ranges of the same length; it ends at a zero byte. *)
Definition lower (c : N) : N := if (65 <=? c) && (c <=? 90) then c + 32 else c.
Fixpoint same_nocase (a b : list N) : bool :=
  match a, b with
  | [], _ | _, [] => true
  | x :: a', y :: b' => (lower x =? lower y) && ((x =? 0) || same_nocase a' b')
  end.
(** mdns_string_equal, 454-490: the positions behind the two names, [None] if it returns 0. *)
Fixpoint equal_loop (fuel : nat) (m1 : list N) (size1 cur1 : N) (end1 : option N) (m2 : list N) (size2 cur2 : N) (end2 : option N)
  : res (option (N * N)) :=
  match fuel with
  | O => Loop
  | S f =>
    do p1 <- next_part m1 size1 cur1;
    do p2 <- next_part m2 size2 cur2;
    match p1, p2 with
    | Some p1, Some p2 =>
      if negb (pLen p1 =? pLen p2) then Ok None else
      do b1 <- rd_bytes m1 (pOff p1) (pLen p2);
      do b2 <- rd_bytes m2 (pOff p2) (pLen p2);
      if negb (same_nocase b2 b1) then Ok None else
      let end1 := match end1 with None => if pRef p1 then Some (cur1 + 2) else None | e => e end in
      let end2 := match end2 with None => if pRef p2 then Some (cur2 + 2) else None | e => e end in
      let cur1 := pOff p1 + pLen p1 in
      let cur2 := pOff p2 + pLen p2 in
      if pLen p1 =? 0 then
        Ok (Some (match end1 with Some e => e | None => cur1 + 1 end, match end2 with Some e => e | None => cur2 + 1 end))
      else equal_loop f m1 size1 cur1 end1 m2 size2 cur2 end2
    | _, _ => Ok None
    end
  end.
(** mdns_string_extract, 492-527, into a text buffer of [cap] bytes: the bytes written to the buffer in
    order, the length of the result and the new value of *offset. *)
Fixpoint extract_loop (fuel : nat) (m : list N) (size cur : N) (fin : option N) (out : list N) (remain : N)
  : res (list N * N * option N) :=
  match fuel with
  | O => Loop
  | S f =>
    do p <- next_part m size cur;
    match p with
    | None => Ok (out, remain, None)
    | Some p =>
      let fin := match fin with None => if pRef p then Some (cur + 2) else None | e => e end in
      do w <- (if pLen p =? 0 then Ok (out, remain)
               else let n := if pLen p <? remain then pLen p else remain in
                    do b <- rd_bytes m (pOff p) n;
                    let remain := remain - n in
                    if remain =? 0 then Ok (out ++ b, remain) else Ok (out ++ b ++ [46], remain - 1));
      let cur := pOff p + pLen p in
      if pLen p =? 0 then Ok (fst w, snd w, Some (match fin with Some e => e | None => cur + 1 end))
      else extract_loop f m size cur fin (fst w) (snd w)
    end
  end.
Record extracted := mkExtracted { xWritten : list N; xLength : N; xOffset : N }.
Definition extract (fuel : nat) (m : list N) (size off cap : N) : res extracted :=
  do r <- extract_loop fuel m size off None [] cap;
  match snd r with
  | None => Ok (mkExtracted (fst (fst r)) 0 off)
  | Some e => Ok (mkExtracted (fst (fst r)) (cap - snd (fst r)) e)
  end.
(** std::string(result.str, result.length). *)
Definition name_text (x : extracted) : list N := firstn (N.to_nat (xLength x)) (xWritten x).

(** ** Writing names, mdns.h:529-593.  The result is the bytes written from [data] on; the functions
    return the pointer behind them, or 0 ([None]). *)
(** mdns_string_make, 540-574, with mdns_string_find, 529-538; [rest] is the text from last_pos on. *)
Fixpoint make_loop (fuel : nat) (rest : list N) (remain : N) (out : list N) : res (option (list N)) :=
  match fuel with
  | O => Loop
  | S f =>
    match rest with
    | [] => if remain =? 0 then Ok None else Ok (Some (out ++ [0]))
    | _ :: _ =>
      match find_char 46 rest with
      | Some i =>
        let n := N.of_nat i in
        if n <? remain then make_loop f (skipn (i + 1) rest) (remain - (n + 1)) (out ++ (n mod 256) :: firstn i rest) else Ok None
      | None =>
        let n := nlen rest in
        if n <? remain then
          if remain - (n + 1) =? 0 then Ok None else Ok (Some (out ++ (n mod 256) :: rest ++ [0]))
        else Ok None
      end
    end
  end.
Definition name_make (cap : N) (name : list N) : res (option (list N)) := make_loop (S (List.length name)) name cap [].
(** mdns_string_make_ref, 576-583. *)
Definition make_ref (cap off : N) : option (list N) :=
  if cap <? 2 then None else Some (be_bytes 2 (N.lor 49152 (off mod 65536))).
(** mdns_string_make_with_ref, 585-593.  Line 589 subtracts data from the result of mdns_string_make and
    line 590 tests [data], not that result: after a failure line 592 writes before address 0. *)
Definition make_with_ref (cap : N) (name : list N) (off : N) : res (option (list N)) :=
  do r <- name_make cap name;
  match r with
  | None => UB
  | Some b =>
    let cap := cap - nlen b in
    if cap =? 0 then Ok None
    else match make_ref (cap + 1) off with None => Ok None | Some r => Ok (Some (removelast b ++ r)) end
  end.

(** ** The records a receiver gets *)
(** The arguments of one call of the callback, 80-84. *)
Record call := mkCall { kEntry : N; kType : N; kClass : N; kTtl : N; kName : N; kNameLen : N; kOff : N; kLen : N }.
Section Receive.
(** What the callback does with the collected state; [true]: it returned a value other than 0. *)
Variable St : Type.
Variable cb : list N -> N -> call -> St -> res (St * bool).
(** mdns_records_parse, 595-625: the state, the new offset and the number of calls. *)
Fixpoint records_parse (n : nat) (m : list N) (size off entry : N) (docb : bool) (s : St) (parsed : N) : res (St * N * N) :=
  match n with
  | O => Ok (s, off, parsed)
  | S n' =>
    do e <- name_skip m size off;
    let after := match e with Some e => e | None => off end in
    do rtype <- rd16 m after;
    do rclass <- rd16 m (after + 2);
    do ttl <- rd32 m (after + 4);
    do len <- rd16 m (after + 8);
    let roff := after + 10 in
    if docb then
      do r <- cb m size (mkCall entry rtype rclass ttl off (after - off) roff len) s;
      records_parse n' m size (roff + len) entry (negb (snd r)) (fst r) (parsed + 1)
    else records_parse n' m size (roff + len) entry docb s parsed
  end.
(** The question part of mdns_query_recv, 971-981. *)
Fixpoint skip_questions (n : nat) (m : list N) (size off : N) : res (option N) :=
  match n with
  | O => Ok (Some off)
  | S n' =>
    do e <- name_skip m size off;
    match e with
    | None => Ok None
    | Some e => do t <- rd16 m e; do c <- rd16 m (e + 2); skip_questions n' m size (e + 4)
    end
  end.
(** mdns_query_recv, 939-994, on a received message of [size] bytes. *)
Definition query_recv (m : list N) (size only : N) (s : St) : res (St * N) :=
  do qid <- rd16 m 0;
  do flags <- rd16 m 2;
  do questions <- rd16 m 4;
  do answers <- rd16 m 6;
  do authority <- rd16 m 8;
  do additional <- rd16 m 10;
  if (0 <? only) && negb (qid =? only) then Ok (s, 0)
  else if 1 <? questions then Ok (s, 0)
  else
    do o <- skip_questions (N.to_nat questions) m size 12;
    match o with
    | None => Ok (s, 0)
    | Some off =>
      do a <- records_parse (N.to_nat answers) m size off 1 true s 0;
      do b <- records_parse (N.to_nat authority) m size (snd (fst a)) 2 true (fst (fst a)) 0;
      do c <- records_parse (N.to_nat additional) m size (snd (fst b)) 3 true (fst (fst b)) 0;
      Ok (fst (fst c), snd a + snd b + snd c)
    end.
(** mdns_services_query, 674-689. *)
Definition services_name : list N := 9 :: T"_services" ++ 7 :: T"_dns-sd" ++ 4 :: T"_udp" ++ 5 :: T"local" ++ [0].
Definition services_query : list N := [0; 0; 0; 0; 0; 1; 0; 0; 0; 0; 0; 0] ++ services_name ++ [0; 12; 128; 1].
(** The comparison with the name at position 12 of it.  The name in the query has 5 parts. *)
Definition is_services (m : list N) (size off : N) : res (option N) :=
  do r <- equal_loop 6 m size off None services_query (nlen services_query) 12 None;
  match r with None => Ok None | Some e => Ok (Some (fst e)) end.
(** mdns_discovery_recv, 696-788.  The questions, 732-748: *)
Fixpoint check_questions (n : nat) (m : list N) (size off : N) : res (option N) :=
  match n with
  | O => Ok (Some off)
  | S n' =>
    do e <- is_services m size off;
    match e with
    | None => Ok None
    | Some e =>
      do t <- rd16 m e;
      do c <- rd16 m (e + 2);
      if negb (t =? 12) || negb (N.land c 32767 =? 1) then Ok None else check_questions n' m size (e + 4)
    end
  end.
(** The answers, 750-777; line 766 subtracts two size_t. *)
Fixpoint discovery_answers (n : nat) (m : list N) (size off : N) (docb : bool) (s : St) (records : N) : res (St * option N * N) :=
  match n with
  | O => Ok (s, Some off, records)
  | S n' =>
    do e <- is_services m size off;
    let after := match e with Some e => e | None => off end in
    do rtype <- rd16 m after;
    do rclass <- rd16 m (after + 2);
    do ttl <- rd32 m (after + 4);
    do len <- rd16 m (after + 8);
    if (two64 + size - after) mod two64 <=? len then Ok (s, None, records)
    else
      if (match e with Some _ => true | None => false end) && docb then
        do r <- cb m size (mkCall 1 rtype rclass ttl off (after - off) (after + 10) len) s;
        discovery_answers n' m size (after + 10 + len) (negb (snd r)) (fst r) (records + 1)
      else discovery_answers n' m size (after + 10 + len) docb s records
  end.
Definition discovery_recv (m : list N) (size : N) (s : St) : res (St * N) :=
  do qid <- rd16 m 0;
  do flags <- rd16 m 2;
  do questions <- rd16 m 4;
  do answers <- rd16 m 6;
  do authority <- rd16 m 8;
  do additional <- rd16 m 10;
  if negb (qid =? 0) || negb (flags =? 33792) then Ok (s, 0)
  else
    do o <- check_questions (N.to_nat questions) m size 12;
    match o with
    | None => Ok (s, 0)
    | Some off =>
      do a <- discovery_answers (N.to_nat answers) m size off true s 0;
      match snd (fst a) with
      | None => Ok (fst (fst a), 0)
      | Some off =>
        do b <- records_parse (N.to_nat authority) m size off 2 true (fst (fst a)) 0;
        do c <- records_parse (N.to_nat additional) m size (snd (fst b)) 3 true (fst (fst b)) 0;
        Ok (fst (fst c), snd a + snd b + snd c)
      end
    end.
(** mdns_socket_listen, 790-851; the value returned by the callback is not used. *)
Fixpoint listen_questions (n : nat) (m : list N) (size off flags questions : N) (s : St) (parsed : N) : res (St * N) :=
  match n with
  | O => Ok (s, parsed)
  | S n' =>
    let rest e :=
      do rtype <- rd16 m e;
      do rclass <- rd16 m (e + 2);
      if negb (N.land rclass 32767 =? 1) then Ok (s, 0)
      else
        do r <- cb m size (mkCall 0 rtype rclass 0 off (e - off) off (e - off)) s;
        listen_questions n' m size (e + 4) flags questions (fst r) (parsed + 1) in
    do q <- is_services m size off;
    match q with
    | Some e => if negb (flags =? 0) || negb (questions =? 1) then Ok (s, 0) else rest e
    | None =>
      do e <- name_skip m size off;
      match e with None => Ok (s, parsed) | Some e => rest e end
    end
  end.
Definition socket_listen (m : list N) (size : N) (s : St) : res (St * N) :=
  do qid <- rd16 m 0;
  do flags <- rd16 m 2;
  do questions <- rd16 m 4;
  listen_questions (N.to_nat questions) m size 12 flags questions s 0.
End Receive.

(** ** Record data, mdns.h:1159-1215 *)
(** mdns_record_parse_ptr, 1159-1167, as the std::string made of its result. *)
Definition parse_ptr (fuel : nat) (m : list N) (size off len cap : N) : res (list N) :=
  if (off + len <=? size) && (2 <=? len) then do x <- extract fuel m size off cap; Ok (name_text x) else Ok [].
(** mdns_record_parse_srv, 1169-1189: port and name. *)
Definition parse_srv (fuel : nat) (m : list N) (size off len cap : N) : res (N * list N) :=
  if (off + len <=? size) && (8 <=? len) then
    do prio <- rd16 m off;
    do weight <- rd16 m (off + 2);
    do port <- rd16 m (off + 4);
    do x <- extract fuel m size (off + 6) cap;
    Ok (port, name_text x)
  else Ok (0, []).
(** mdns_record_parse_a and mdns_record_parse_aaaa, 1191-1215: the bytes of the address; all zero if the
    record does not have the right length. *)
Definition parse_address (n : N) (m : list N) (size off len : N) : res (list N) :=
  if (off + len <=? size) && (len =? n) then rd_bytes m off n else Ok (repeat 0 (N.to_nat n)).

(** ** What a query collects, mdns.cpp:239-292 and mdns.hpp:33-63 *)
(** unsorted_query_part_t: address of the sender, name of the record, data. *)
Definition entry (D : Type) : Type := (list N * list N * D)%type.
Record collected := mkCollected {
  cSrv : list (entry (N * list N)); cTxt : list (entry (list N)); cA : list (entry (list N));
  cAaaa : list (entry (list N)); cPtr : list (entry (list N)) }.
Definition nothing : collected := mkCollected [] [] [] [] [].
Section Callback.
Variable fuel : nat.
(** utils.cpp:60-78, 80-100: the text of an address (getnameinfo with numeric flags); [from]: that of the
    sender. *)
Variable ip4_text ip6_text : list N -> list N.
Variable from : list N.
(** query_callback, mdns.cpp:239-292; it returns 0. *)
Definition query_callback (m : list N) (size : N) (k : call) (c : collected) : res (collected * bool) :=
  do x <- extract fuel m size (kName k) 256;
  let name := name_text x in
  if kType k =? 12 then
    do p <- parse_ptr fuel m size (kOff k) (kLen k) 256;
    Ok (mkCollected (cSrv c) (cTxt c) (cA c) (cAaaa c) (cPtr c ++ [(from, name, p)]), false)
  else if kType k =? 33 then
    do v <- parse_srv fuel m size (kOff k) (kLen k) 256;
    Ok (mkCollected (cSrv c ++ [(from, name, v)]) (cTxt c) (cA c) (cAaaa c) (cPtr c), false)
  else if kType k =? 1 then
    do b <- parse_address 4 m size (kOff k) (kLen k);
    Ok (mkCollected (cSrv c) (cTxt c) (cA c ++ [(from, name, ip4_text b)]) (cAaaa c) (cPtr c), false)
  else if kType k =? 28 then
    do b <- parse_address 16 m size (kOff k) (kLen k);
    Ok (mkCollected (cSrv c) (cTxt c) (cA c) (cAaaa c ++ [(from, name, ip6_text b)]) (cPtr c), false)
  else if kType k =? 16 then
    do b <- rd_bytes m (kOff k) (kLen k);
    Ok (mkCollected (cSrv c) (cTxt c ++ [(from, name, b)]) (cA c) (cAaaa c) (cPtr c), false)
  else Ok (c, false).
(** executeDiscovery, mdns.cpp:620-681, passes a null pointer (639) that line 247 dereferences. *)
Definition discovery_callback (m : list N) (size : N) (k : call) (c : collected) : res (collected * bool) := UB.
End Callback.

(** ** executeQuery2, mdns.cpp:476-618: from the collected records to the results *)
Definition opt_nat (o : option nat) (d : nat) : nat := match o with Some i => i | None => d end.
(** testQueryPart, 548-568: [a], [n]: address and name of the record; then the SRV record. *)
Definition ends_with (s t : list N) : bool := starts_with (rev t) (rev s).
Definition belongs (a n : list N) (srv : entry (N * list N)) : bool :=
  let '(sa, sn, (_, target)) := srv in
  if negb (str_eqb a sa) then false
  else
    str_eqb n sn || str_eqb n target
    || ((nlen n <=? nlen sn) && ends_with sn n)
    || (let l := firstn (opt_nat (find_char 46 n) (List.length n)) n in (nlen l <=? nlen sn) && starts_with l sn).
(** std::set<std::string>::insert. *)
Fixpoint lex_lt (a b : list N) : bool :=
  match a, b with
  | _, [] => false
  | [], _ :: _ => true
  | x :: a', y :: b' => (x <? y) || ((x =? y) && lex_lt a' b')
  end.
Fixpoint set_insert (l : list (list N)) (x : list N) : list (list N) :=
  match l with
  | [] => [x]
  | y :: r => if lex_lt x y then x :: l else if lex_lt y x then y :: set_insert r x else l
  end.
Definition srv_eqb (x y : entry (N * list N)) : bool :=
  let '(a, n, (p, t)) := x in let '(a', n', (p', t')) := y in
  str_eqb a a' && str_eqb n n' && (p =? p') && str_eqb t t'.
(** The first record that belongs to the service, 584-590 and 606-612; all of them, 592-604. *)
Definition mine (srv : entry (N * list N)) (l : list (entry (list N))) : list (list N) :=
  map snd (filter (fun e => belongs (fst (fst e)) (snd (fst e)) srv) l).
Definition result_of (c : collected) (srv : entry (N * list N)) : query :=
  let '(_, n, (p, _)) := srv in
  mkQuery (hd [] (mine srv (cPtr c))) n (hd [] (mine srv (cTxt c))) p
    (fold_left set_insert (mine srv (cA c)) []) (fold_left set_insert (mine srv (cAaaa c)) []).
(** 570-617; an SRV record equal to an earlier one is left out. *)
Fixpoint results_loop (c : collected) (before l : list (entry (N * list N))) : list query :=
  match l with
  | [] => []
  | x :: r =>
    if existsb (srv_eqb x) before then results_loop c (before ++ [x]) r
    else result_of c x :: results_loop c (before ++ [x]) r
  end.
Definition results (c : collected) : list query := results_loop c [] (cSrv c).

(** ** Sending: the buffer of [cap] bytes, [out] are the bytes written so far.  [Ok None]: the function
    returns -1. *)
Definition put (cap : N) (out bytes : list N) : res (option (list N)) :=
  if nlen out + nlen bytes <=? cap then Ok (Some (out ++ bytes)) else UB.
Definition patch16 (pos v : N) (out : list N) : list N :=
  firstn (N.to_nat pos) out ++ be_bytes 2 (v mod 65536) ++ skipn (N.to_nat pos + 2) out.
Notation "'try' x <- e ; f" := (do o <- e; match o with None => Ok None | Some x => f end)
  (at level 200, x pattern, e at level 100, right associativity).
(** "if (!data || (remain <= n)) return -1". *)
Definition need (cap n : N) (out : list N) : res (option unit) := if cap - nlen out <=? n then Ok None else Ok (Some tt).
Definition put_name (cap : N) (out name : list N) : res (option (list N)) :=
  try b <- name_make (cap - nlen out) name; put cap out b.
Definition put_ref (cap : N) (out : list N) (off : N) : res (option (list N)) :=
  match make_ref (cap - nlen out) off with None => Ok None | Some b => put cap out b end.
Definition put_with_ref (cap : N) (out name : list N) (off : N) : res (option (list N)) :=
  try b <- make_with_ref (cap - nlen out) name off; put cap out b.
(** Type, class, time to live and length of a record. *)
Definition rr_head (t c ttl len : N) : list N := be_bytes 2 t ++ be_bytes 2 c ++ be_bytes 4 ttl ++ be_bytes 2 len.
(** mdns_query_send, mdns.h:892-937; [multi]: the socket uses the mDNS port, 900-910. *)
Definition query_send (cap : N) (type : N) (name : list N) (qid : N) (multi : bool) : res (option (list N)) :=
  if cap <? 17 + nlen name then Ok None else
  try out <- put cap [] (be_bytes 2 qid ++ be_bytes 2 0 ++ be_bytes 2 1 ++ be_bytes 2 0 ++ be_bytes 2 0 ++ be_bytes 2 0);
  try b <- name_make (cap - 17) name;
  try out <- put cap out b;
  put cap out (be_bytes 2 type ++ be_bytes 2 (if multi then 1 else 32769)).
(** mdns_discovery_answer, 853-890.  Line 883 passes ten bytes for a record head of twelve. *)
Definition discovery_answer (cap : N) (record : list N) : res (option (list N)) :=
  if cap <? nlen services_query + 32 + nlen record then Ok None else
  try out <- put cap [] (patch16 6 1 (patch16 2 33792 services_query));
  try out <- put cap out (be_bytes 2 49164 ++ rr_head 12 1 10 0);
  do b <- name_make (cap - (nlen services_query + 10)) record;
  match b with
  | None => UB
  | Some b =>
    try out <- put cap (patch16 (nlen out - 2) (nlen b) out) b;
    put cap out [0]
  end.
(** mdns_query_answer, 996-1157.  [unicast]: address_size is not 0; an absent IPv6 address is []. *)
Definition query_answer (cap : N) (unicast : bool) (qid : N) (service host : list N) (ip4 ip6 : list N) (port : N) (txt : list N)
  : res (option (list N)) :=
  if cap <? 12 + 32 + nlen service + nlen host then Ok None else
  let use4 := existsb (fun b => negb (b =? 0)) ip4 in
  let use6 := 0 <? nlen ip6 in
  let use_txt := (0 <? nlen txt) && (nlen txt <=? 255) in
  let bit (b : bool) := if b then 1 else 0 in
  let rclass := if unicast then 32769 else 1 in
  let ttl := if unicast then 10 else 60 in
  (* 1015-1022 *)
  try out <- put cap [] (be_bytes 2 (if unicast then qid else 0) ++ be_bytes 2 33792 ++ be_bytes 2 (bit unicast) ++ be_bytes 2 1
                         ++ be_bytes 2 0 ++ be_bytes 2 (1 + bit use4 + bit use6 + bit use_txt));
  (* 1028-1053 *)
  let service_offset := 12 in
  try r <- (if unicast then
              try out <- put_name cap out service;
              let local := nlen out - 7 in
              try _ <- need cap 4 out;
              try out <- put cap out (be_bytes 2 12 ++ be_bytes 2 32769);
              try out <- put_ref cap out service_offset;
              Ok (Some (out, local))
            else
              try out <- put_name cap out service;
              Ok (Some (out, nlen out - 7)));
  let '(out, local_offset) := r in
  (* 1054-1071: PTR *)
  try _ <- need cap 10 out;
  try out <- put cap out (rr_head 12 rclass ttl 0);
  let full_offset := nlen out in
  try out <- put_with_ref cap out host service_offset;
  try _ <- need cap 10 out;
  let out := patch16 (full_offset - 2) (nlen out - full_offset) out in
  (* 1075-1096: SRV; line 1077 asks for more than 10 bytes, 1080-1087 write 16 *)
  try out <- put_ref cap out full_offset;
  try _ <- need cap 10 out;
  let len_pos := nlen out + 8 in
  try out <- put cap out (rr_head 33 rclass ttl 0 ++ be_bytes 2 0 ++ be_bytes 2 0 ++ be_bytes 2 port);
  let host_offset := nlen out in
  try out <- put_with_ref cap out host local_offset;
  try _ <- need cap 10 out;
  let out := patch16 len_pos (nlen out - (len_pos + 2)) out in
  (* 1099-1114: A *)
  try out <- (if use4 then
                try out <- put_ref cap out host_offset;
                try _ <- need cap 14 out;
                put cap out (rr_head 1 rclass ttl 4 ++ ip4)
              else Ok (Some out));
  (* 1117-1131: AAAA *)
  try out <- (if use6 then
                try out <- put_ref cap out host_offset;
                try _ <- need cap 26 out;
                put cap out (rr_head 28 rclass ttl 16 ++ ip6)
              else Ok (Some out));
  (* 1134-1151: TXT *)
  (if use_txt then
     try out <- put_ref cap out full_offset;
     try _ <- need cap (11 + nlen txt) out;
     put cap out (rr_head 16 rclass ttl (nlen txt) ++ txt)
   else Ok (Some out)).

(** ** The announcing side: service_callback, mdns.cpp:294-359 *)
(** The service record of runMainLoop, 433-440: an IPv4 address is 0.0.0.0 and an IPv6 address is null if
    the object has none. *)
Record announced := mkAnnounced { aService : list N; aHost : list N; aIP4 : list N; aIP6 : list N; aPort : N; aTxt : list N }.
Definition dns_sd : list N := T"_services._dns-sd._udp.local.".
(** The answers sent; [true]: to the sender of the question only. *)
Definition service_callback (fuel : nat) (qid : N) (a : announced) (m : list N) (size : N) (k : call) (sent : list (bool * list N))
  : res (list (bool * list N) * bool) :=
  let add u (r : res (option (list N))) :=
    do o <- r; match o with None => Ok (sent, false) | Some b => Ok (sent ++ [(u, b)], false) end in
  if negb (kEntry k =? 0) then Ok (sent, false)
  else if kType k =? 12 then
    do n <- parse_ptr fuel m size (kOff k) (kLen k) 256;
    if str_eqb n dns_sd then add true (discovery_answer 512 (aService a))
    else if str_eqb n (aService a) then
      let u := negb (N.land (kClass k) 32768 =? 0) in
      add u (query_answer 512 u qid (aService a) (aHost a) (aIP4 a) (aIP6 a) (aPort a) (aTxt a))
    else Ok (sent, false)
  else if kType k =? 33 then
    do v <- parse_srv fuel m size (kOff k) (kLen k) 256;
    Ok (sent, false)
  else Ok (sent, false).
(** mdns_socket_listen with this callback, 461: the query identifier is the one of the message. *)
Definition listen (fuel : nat) (a : announced) (m : list N) (size : N) : res (list (bool * list N)) :=
  do qid <- rd16 m 0;
  do r <- socket_listen (list (bool * list N)) (service_callback fuel qid a) m size [];
  Ok (fst r).
(** openClientSockets, 182-187, and ConnectToLocalService, CMVRxchangeService.cpp:71-78: is a service
    announced on the interface with this address?  s_addr lies in memory most significant byte first;
    the number is its value on the little-endian machine. *)
Definition s_addr (ip : list N) : N := le_val ip.
Definition announced_on (ip : list N) : bool :=
  negb (s_addr ip =? le_val [127; 0; 0; 1]) && negb (N.land (s_addr ip) 4278190080 =? 2130706432).
