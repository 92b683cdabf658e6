(** MVR-xchange messages: src/mvrxchange/mvrxchange_message.cpp:146-508, on the JSON values of
    JsonModel.

    A fixed-size text field (MVRxchangeString, Include/IMediaRessourceVectorInterface.h:1850-1889) is
    the list of bytes before its terminating zero.  A read of a missing key through the const
    operator[] (json.h:20121-20131) and a strcpy of 1024 bytes or more are undefined behaviour.  The
    debug-only log lines are left out; the ordinary log lines are evaluated (mvrxchange_prefix.h:13). *)
From Coq Require Import List NArith ZArith String Lia Bool.
From Verif Require Import Bytes Txt UtfModel NumModel UuidModel ConvModel JsonModel.
Import ListNotations.
Open Scope N_scope.

(** ** Message structures, IMediaRessourceVectorInterface.h:1906-1989 *)
Notation words := (N * N * N * N)%type.
Inductive mtype := MUndefined | MJoin | MLeave | MCommit | MRequest
  | MJoinRet | MLeaveRet | MCommitRet | MRequestRet | MNewSessionHost.
Record commit := mkCommit {
  cFileName : list N; cComment : list N; cMajor : N; cMinor : N; cSize : N;
  cFile : words; cStation : words; cFor : list words }.
Record join := mkJoin { jProvider : list N; jName : list N; jStation : words; jMajor : N; jMinor : N; jCommits : list commit }.
Record request := mkRequest { rFile : words; rFrom : list words }.
(** [mBuffer]: BufferToFile with BufferToFileLength bytes; [None] is the null pointer. *)
Record msg := mkMsg {
  mType : mtype; mJoin : join; mCommit : commit; mRequest : request; mLeave : words;
  mPath : list N; mBuffer : option (list N); mOk : bool; mError : list N }.
Definition no_words : words := (0, 0, 0, 0).
(** emplace_back() value-initialises, so the numbers are 0. *)
Definition empty_commit : commit := mkCommit [] [] 0 0 0 no_words no_words [].
(** MVRxchangeString::operator=(const char* ), 1866-1882: at most 1023 bytes are kept. *)
Definition fixed_text (s : list N) : list N := firstn 1023 (upto_nul s).

(** ** Outcomes *)
(** Of an expression. *)
Inductive eres (A : Type) := EOk (a : A) | EExc (what : list N) | EBad.
Arguments EOk {A} _. Arguments EExc {A} _. Arguments EBad {A}.
Definition ebind {A B} (e : eres A) (f : A -> eres B) : eres B :=
  match e with EOk a => f a | EExc w => EExc w | EBad => EBad end.
(** Of a statement that updates a message in place: finished, left by an exception (with what has been
    written so far), or undefined. *)
Inductive out (S : Type) := ORet (s : S) | OExc (what : list N) (s : S) | OBad.
Arguments ORet {S} _. Arguments OExc {S} _ _. Arguments OBad {S}.
Definition step {A S} (e : eres A) (s : S) (k : A -> out S) : out S :=
  match e with EOk a => k a | EExc w => OExc w s | EBad => OBad end.

(** ** Access to JSON values *)
Definition type_name (v : json) : list N :=        (* json.h:23412-23435 *)
  match v with
  | JNull => T"null" | JObj _ => T"object" | JArr _ => T"array" | JStr _ => T"string" | JBool _ => T"boolean"
  | JInt _ | JUns _ | JFloat _ _ => T"number"
  end.
Definition type_error (id : list N) (t : list N) (v : json) : list N :=  (* json.h:2369-2372, 2567-2571 *)
  T"[json.exception.type_error." ++ id ++ T"] " ++ t ++ type_name v.
(** The const operator[], json.h:20121-20131. *)
Definition at_key (v : json) (k : list N) : eres json :=
  match v with
  | JObj m => match obj_get m k with Some x => EOk x | None => EBad end
  | _ => EExc (type_error (T"305") (T"cannot use operator[] with a string argument with ") v)
  end.
(** get<std::string>, json.h:3476-3484. *)
Definition get_str (v : json) : eres (list N) :=
  match v with JStr s => EOk s | _ => EExc (type_error (T"302") (T"type must be string, but is ") v) end.
(** static_cast to an unsigned type of [w] bits; from double it is undefined if the truncated value does not fit. *)
Definition float_to_uint (w : N) (neg : bool) (q : N * N) : eres N :=
  let t := fst q / snd q in
  if (t <? 2 ^ w) && (negb neg || (t =? 0)) then EOk t else EBad.
Definition number_to_uint (w : N) (v : json) : eres N :=
  match v with
  | JUns n => EOk (n mod 2 ^ w)
  | JInt z => EOk (to_unsigned w z)
  | JFloat neg q => float_to_uint w neg q
  | _ => EExc (type_error (T"302") (T"type must be number, but is ") v)
  end.
(** Implicit conversion to uint32_t (from_json for arithmetic types, json.h:3689-3723: booleans allowed) and to
    uint64_t (get_arithmetic_value, 3436-3463). *)
Definition get_u32 (v : json) : eres N := match v with JBool b => EOk (if b then 1 else 0) | _ => number_to_uint 32 v end.
Definition get_u64 (v : json) : eres N := number_to_uint 64 v.
(** strcpy(field, value.get<std::string>().c_str()). *)
Definition get_text (v : json) : eres (list N) :=
  ebind (get_str v) (fun s => let t := upto_nul s in if nlen t <? 1024 then EOk t else EBad).
(** ConvertUUID(value.get<std::string>(), variable): the string becomes a TXString (GSString.cpp:99-105).
    Result: the return value and the new contents of a variable holding [old].  A loop that does not end
    counts as undefined. *)
Definition get_uuid (wraps : bool) (old : words) (v : json) : eres (bool * words) :=
  ebind (get_str v) (fun s =>
    match set_from_chars s with
    | None => EExc (T"wstring_convert::from_bytes")
    | Some u => match read_mvr_uuid wraps old u with
      | Ok r => EOk (rd_ok r, rd_val r)
      | Exc => EExc (T"wstring_convert::to_bytes")
      | UB | Loop => EBad
      end
    end).
(** The values a range-for over a JSON value visits. *)
Definition elements (v : json) : list json :=
  match v with JArr l => l | JObj m => map snd m | JNull => [] | _ => [v] end.

(** std::stoul on the characters before the first zero: white space, a sign, digits; throws without digits or
    if the number needs more than 64 bits; a negative number is negated modulo 2^64. *)
Fixpoint span_dec (b : list N) : list N * list N :=
  match b with c :: r => if is_digit c then let '(d, r') := span_dec r in (c :: d, r') else ([], b) | [] => ([], []) end.
Definition stoul (s : list N) : eres N :=
  let b := skip_space (upto_nul s) in
  let '(neg, b) := match b with c :: r => if c =? 45 then (true, r) else if c =? 43 then (false, r) else (false, b) | [] => (false, b) end in
  match fst (span_dec b) with
  | [] => EExc (T"stoul")
  | d => let v := digits_val d 0 in
         if two64 <=? v then EExc (T"stoul") else EOk (if neg then (two64 - v) mod two64 else v)
  end.
(** [HandleStringNumber], 317-326. *)
Definition is_number (v : json) : bool := match v with JUns _ | JInt _ | JFloat _ _ => true | _ => false end.
Definition string_number (v : json) : eres N :=
  if is_number v then number_to_uint 32 v else ebind (get_str v) (fun s => ebind (stoul s) (fun n => EOk (n mod two32))).
(** [HandleStringBool], 328-337. *)
Definition string_bool (v : json) : eres bool :=
  match v with JBool b => EOk b | _ => ebind (get_str v) (fun s => EOk (str_eqb s (T"true"))) end.

(** ** Writing.  The identifier text is ASCII, so its UTF-16 units are its bytes (GetStdString). *)
Definition words_text (w : words) : json :=
  let '(a, b, c, d) := w in JStr (write_uuid (from_words a b c d)).
Fixpoint set_all (m : list (list N * json)) (l : list (list N * json)) : list (list N * json) :=
  match l with [] => m | (k, v) :: r => set_all (obj_set m k v) r end.
(** [MVR_COMMIT_ToJson], 149-166. *)
Definition commit_to_json (c : commit) : json :=
  JObj (set_all [] [(T"Type", JStr (T"MVR_COMMIT")); (T"FileName", JStr (cFileName c)); (T"Comment", JStr (cComment c));
    (T"FileSize", JUns (cSize c)); (T"FileUUID", words_text (cFile c)); (T"StationUUID", words_text (cStation c));
    (T"verMinor", JUns (cMinor c)); (T"verMajor", JUns (cMajor c)); (T"ForStationsUUID", JArr (map words_text (cFor c)))]).
(** The payload built by [FromExternalMessage], 192-268. *)
Definition ret_fields (t : list N) (m : msg) := [(T"Type", JStr t); (T"OK", JBool (mOk m)); (T"Message", JStr (mError m))].
Definition join_fields (t : list N) (j : join) := [(T"Type", JStr t); (T"Provider", JStr (jProvider j)); (T"StationName", JStr (jName j));
  (T"StationUUID", words_text (jStation j)); (T"verMajor", JUns (jMajor j)); (T"verMinor", JUns (jMinor j));
  (T"Commits", JArr (map commit_to_json (jCommits j)))].
Definition payload (m : msg) : json :=
  match mType m with
  | MJoin => JObj (set_all [] (join_fields (T"MVR_JOIN") (mJoin m)))
  | MJoinRet => JObj (set_all [] ([(T"OK", JBool (mOk m)); (T"Message", JStr (mError m))] ++ join_fields (T"MVR_JOIN_RET") (mJoin m)))
  | MLeave => JObj (set_all [] [(T"Type", JStr (T"MVR_LEAVE")); (T"FromStationUUID", words_text (mLeave m))])
  | MLeaveRet => JObj (set_all [] (ret_fields (T"MVR_LEAVE_RET") m))
  | MCommit => commit_to_json (mCommit m)
  | MCommitRet => JObj (set_all [] (ret_fields (T"MVR_COMMIT_RET") m))
  | MRequest => JObj (set_all [] [(T"Type", JStr (T"MVR_REQUEST")); (T"FileUUID", words_text (rFile (mRequest m)));
                        (T"FromStationUUID", JArr (map words_text (rFrom (mRequest m))))])
  | MRequestRet => JObj (set_all [] (ret_fields (T"MVR_REQUEST_RET") m))
  | MUndefined | MNewSessionHost => JObj []
  end.
Definition JSON_TYPE : N := 0.    (* mvrxchange_prefix.h:40-41 *)
Definition BUFFER_TYPE : N := 1.
(** [FromExternalMessage], 270-315: package type and body.  [files]: the bytes of the file at a path (the file
    is assumed to be readable).  The log line 270 reads Type through the inserting operator[]. *)
Definition from_external (files : list N -> list N) (m : msg) : eres (N * list N) :=
  ebind (match payload m with JObj o => EOk (match obj_get o (T"Type") with Some v => v | None => JNull end) | _ => EBad end) (fun t =>
  ebind (get_str t) (fun _ =>
  match mType m, mOk m with
  | MRequestRet, true =>
    match mBuffer m with
    | Some b => EOk (BUFFER_TYPE, b)
    | None => EOk (BUFFER_TYPE, files (mPath m))
    end
  | _, _ =>
    match dump (payload m) with
    | DText t => EOk (JSON_TYPE, t)
    | DThrow => EExc (T"[json.exception.type_error.316] invalid UTF-8 byte")
    | DFloat => EBad
    end
  end)).

(** ** Reading *)
Section Reading.
Variable wraps : bool.

Definition set_ctext (f m : list N) (c : commit) : commit := mkCommit f m (cMajor c) (cMinor c) (cSize c) (cFile c) (cStation c) (cFor c).
Definition set_cnum (a b s : N) (c : commit) : commit := mkCommit (cFileName c) (cComment c) a b s (cFile c) (cStation c) (cFor c).
Definition set_cuuid (f s : words) (l : list words) (c : commit) : commit := mkCommit (cFileName c) (cComment c) (cMajor c) (cMinor c) (cSize c) f s l.
(** The loops 179-186 and 398-405; [l] already contains the entries kept so far. *)
Fixpoint read_stations {S} (put : list words -> S) (l : list words) (js : list json) (k : list words -> out S) : out S :=
  match js with
  | [] => k l
  | e :: r => step (get_uuid wraps no_words e) (put (l ++ [no_words])) (fun p =>
      read_stations put (if fst p then l ++ [snd p] else l) r k)
  end.
(** [MVR_COMMIT_FromJson], 168-188. *)
Definition commit_from_json (p : json) (c : commit) : out commit :=
  step (ebind (at_key p (T"Comment")) get_text) c (fun v => let c := set_ctext (cFileName c) v c in
  step (ebind (at_key p (T"verMajor")) get_u32) c (fun v => let c := set_cnum v (cMinor c) (cSize c) c in
  step (ebind (at_key p (T"verMinor")) get_u32) c (fun v => let c := set_cnum (cMajor c) v (cSize c) c in
  step (ebind (at_key p (T"FileSize")) get_u64) c (fun v => let c := set_cnum (cMajor c) (cMinor c) v c in
  step (ebind (at_key p (T"FileName")) get_text) c (fun v => let c := set_ctext v (cComment c) c in
  step (ebind (at_key p (T"FileUUID")) (get_uuid wraps (cFile c))) c (fun v => let c := set_cuuid (snd v) (cStation c) (cFor c) c in
  step (ebind (at_key p (T"StationUUID")) (get_uuid wraps (cStation c))) c (fun v => let c := set_cuuid (cFile c) (snd v) [] c in
  step (at_key p (T"ForStationsUUID")) c (fun v =>
  let put l := set_cuuid (cFile c) (cStation c) l c in
  read_stations put [] (elements v) (fun l => ORet (put l)))))))))).

Definition set_type (t : mtype) (m : msg) : msg := mkMsg t (mJoin m) (mCommit m) (mRequest m) (mLeave m) (mPath m) (mBuffer m) (mOk m) (mError m).
Definition set_join (j : join) (m : msg) : msg := mkMsg (mType m) j (mCommit m) (mRequest m) (mLeave m) (mPath m) (mBuffer m) (mOk m) (mError m).
Definition set_commit (c : commit) (m : msg) : msg := mkMsg (mType m) (mJoin m) c (mRequest m) (mLeave m) (mPath m) (mBuffer m) (mOk m) (mError m).
Definition set_request (r : request) (m : msg) : msg := mkMsg (mType m) (mJoin m) (mCommit m) r (mLeave m) (mPath m) (mBuffer m) (mOk m) (mError m).
Definition set_leave (w : words) (m : msg) : msg := mkMsg (mType m) (mJoin m) (mCommit m) (mRequest m) w (mPath m) (mBuffer m) (mOk m) (mError m).
Definition set_buffer (b : list N) (m : msg) : msg := mkMsg (mType m) (mJoin m) (mCommit m) (mRequest m) (mLeave m) (mPath m) (Some b) (mOk m) (mError m).
Definition set_ret (ok : bool) (e : list N) (m : msg) : msg := mkMsg (mType m) (mJoin m) (mCommit m) (mRequest m) (mLeave m) (mPath m) (mBuffer m) ok e.
Definition lift_commit (o : out commit) (put : commit -> msg) (k : commit -> out msg) : out msg :=
  match o with ORet c => k c | OExc w c => OExc w (put c) | OBad => OBad end.
(** The loop over Commits, 351-356 and 371-376. *)
Fixpoint read_commits (put : list commit -> msg) (l : list commit) (js : list json) (k : list commit -> out msg) : out msg :=
  match js with
  | [] => k l
  | e :: r => lift_commit (commit_from_json e empty_commit) (fun c => put (l ++ [c])) (fun c => read_commits put (l ++ [c]) r k)
  end.
(** The OK and Message fields, 368-369, 387-388, 411-412 and 428-429. *)
Definition read_ret (p : json) (m : msg) (k : msg -> out msg) : out msg :=
  step (ebind (at_key p (T"OK")) string_bool) m (fun v => let m := set_ret v (mError m) m in
  step (ebind (at_key p (T"Message")) get_text) m (fun v => k (set_ret (mOk m) v m))).
Definition uuid_check (ok : bool) (m : msg) : out msg :=          (* 431-434 *)
  if ok then ORet m else OExc (T"Unable to parse UUID correctly") m.
(** 344-358 and 359-377; [ret]: with the OK and Message fields. *)
Definition read_join (ret : bool) (p : json) (m : msg) : out msg :=
  let j := mJoin m in
  step (ebind (at_key p (T"verMajor")) string_number) m (fun v => let j := mkJoin (jProvider j) (jName j) (jStation j) v (jMinor j) (jCommits j) in let m := set_join j m in
  step (ebind (at_key p (T"verMinor")) string_number) m (fun v => let j := mkJoin (jProvider j) (jName j) (jStation j) (jMajor j) v (jCommits j) in let m := set_join j m in
  step (ebind (at_key p (T"Provider")) get_text) m (fun v => let j := mkJoin v (jName j) (jStation j) (jMajor j) (jMinor j) (jCommits j) in let m := set_join j m in
  step (ebind (at_key p (T"StationName")) get_text) m (fun v => let j := mkJoin (jProvider j) v (jStation j) (jMajor j) (jMinor j) (jCommits j) in let m := set_join j m in
  step (ebind (at_key p (T"StationUUID")) (get_uuid wraps (jStation j))) m (fun v => let j := mkJoin (jProvider j) (jName j) (snd v) (jMajor j) (jMinor j) (jCommits j) in let m := set_join j m in
  (if ret then read_ret p m else fun k => k m) (fun m =>
  let put l := set_join (mkJoin (jProvider j) (jName j) (jStation j) (jMajor j) (jMinor j) l) m in
  step (at_key p (T"Commits")) (put []) (fun e =>
  read_commits put [] (elements e) (fun l => uuid_check (fst v) (put l))))))))).
(** [Internal_ToExternalMessage], 339-435, for a payload whose Type is the text [t]. *)
Definition internal (t : list N) (p : json) (m : msg) : out msg :=
  if str_eqb t (T"MVR_JOIN") then read_join false p (set_type MJoin m)
  else if str_eqb t (T"MVR_JOIN_RET") then read_join true p (set_type MJoinRet m)
  else if str_eqb t (T"MVR_COMMIT") then
    let m := set_type MCommit m in
    lift_commit (commit_from_json p (mCommit m)) (fun c => set_commit c m) (fun c => ORet (set_commit c m))
  else if str_eqb t (T"MVR_COMMIT_RET") then read_ret p (set_type MCommitRet m) (@ORet msg)
  else if str_eqb t (T"MVR_REQUEST") then
    let m := set_type MRequest m in
    step (ebind (at_key p (T"FileUUID")) (get_uuid wraps (rFile (mRequest m)))) m (fun v =>
    let put l := set_request (mkRequest (snd v) l) m in
    step (at_key p (T"FromStationUUID")) (put []) (fun e =>
    read_stations put [] (elements e) (fun l => uuid_check (fst v) (put l))))
  else if str_eqb t (T"MVR_REQUEST_RET") then read_ret p (set_type MRequestRet m) (@ORet msg)
  else if str_eqb t (T"MVR_LEAVE") then
    let m := set_type MLeave m in
    let from k := step (ebind (at_key p k) (get_uuid wraps (mLeave m))) m (fun v => uuid_check (fst v) (set_leave (snd v) m)) in
    match at_key p (T"FromStationUUID"), at_key p (T"StationUUID") with     (* contains() *)
    | EOk _, _ => from (T"FromStationUUID")
    | _, EOk _ => from (T"StationUUID")
    | _, _ => ORet m
    end
  else if str_eqb t (T"MVR_LEAVE_RET") then read_ret p (set_type MLeaveRet m) (@ORet msg)
  else OExc (T"Unable to parse payload type correctly") m.
(** snprintf(RetError, 1023, ...) keeps 1022 characters. *)
Definition parse_error (t : list N) : list N := firstn 1022 (T"Parse Error: " ++ t).
(** [ToExternalMessage], 437-508: package type [ft], body [b], into the message [m].  [OExc]: the exception
    leaves the function. *)
Definition to_external (ft : N) (b : list N) (m : msg) : out msg :=
  if (ft =? JSON_TYPE) && negb (nlen b =? 0) then
    let missing := ORet (set_ret false (parse_error (T"Type Field is missing")) (set_type MUndefined m)) in
    match parse b with
    | Some (JObj o) =>
      match obj_get o (T"Type") with
      | None => missing
      | Some v => step (get_str v) m (fun t =>
          match internal t (JObj o) (set_type MUndefined m) with
          | OExc w m => ORet (set_ret false (parse_error w) m)
          | o => o
          end)
      end
    | _ => missing
    end
  else if (ft =? BUFFER_TYPE) && negb (nlen b =? 0) then ORet (set_buffer b (set_type MRequestRet m))
  else ORet (set_ret false (parse_error (if (ft =? JSON_TYPE) || (ft =? BUFFER_TYPE) then T"Empty Package" else T"Unknown Package Type"))
               (set_type MUndefined m)).
End Reading.
