(** The MVR-xchange service: src/mvrxchange/CMVRxchangeService.cpp.

    Texts are byte lists.  A fixed-size text field is the list of its bytes before the terminating zero
    (see MessageModel).  The addresses and names copied into TXString objects of the group list
    (CMVRxchangeService.cpp:403-408, 427-432) are kept as bytes: both directions of that conversion are
    modelled in UtfModel and lose nothing on well-formed text.  Locks are not modelled here: every
    function below runs under the lock of the list it changes, so one event is one step. *)
From Coq Require Import List NArith ZArith String Bool.
From Verif Require Import Bytes Txt UtfModel NumModel UuidModel ConvModel JsonModel MessageModel.
Import ListNotations.
Open Scope N_scope.

(** ** Data *)
(** MVRxchangeGroupMember, CMVRxchangeService.h:16-22. *)
Record member := mkMember { gIPs : list (list N); gPort : N; gName : list N; gStation : words }.
(** The fields of ConnectToLocalServiceArgs that the service list uses,
    Include/IMediaRessourceVectorInterface.h:1993-2010. *)
Record found := mkFound { fdService : list N; fdStation : words; fdName : list N; fdIPs : list (list N); fdIP6 : list (list N); fdPort : N }.
(** Query_result, mdns_cpp/include/mdns_cpp/mdns.hpp:16-31; the address sets as their sorted lists. *)
Record query := mkQuery { qService : list N; qHost : list N; qTxt : list N; qPort : N; qIP4 : list (list N); qIP6 : list (list N) }.
(** MvrUUID::operator==, IMediaRessourceVectorInterface.h:81-87. *)
Definition words_eqb (u v : words) : bool :=
  let '(a, b, c, d) := u in let '(a', b', c', d') := v in (a =? a') && (b =? b') && (c =? c') && (d =? d').
Fixpoint texts_eqb (a b : list (list N)) : bool :=
  match a, b with [], [] => true | x :: a', y :: b' => str_eqb x y && texts_eqb a' b' | _, _ => false end.

(** ** FilterServiceName, 30-43: the regular expression deletes every byte that is not a letter, a
    digit, '-' or '_'. *)
Definition name_char (c : N) : bool :=
  ((97 <=? c) && (c <=? 122)) || ((65 <=? c) && (c <=? 90)) || ((48 <=? c) && (c <=? 57)) || (c =? 45) || (c =? 95).
Definition filter_service_name (s : list N) : list N :=
  match s with [] => s | _ => fixed_text (filter name_char s) end.

(** ** The TXT record *)
(** ConnectToLocalService, 58-69: [txt += (uint8_t)size]. *)
Definition txt_entry (t : list N) : list N := (nlen t mod 256) :: t.
(** ConvertUUID(...).GetStdString(): the identifier text is ASCII. *)
Definition station_text (w : words) : list N := let '(a, b, c, d) := w in write_uuid (from_words a b c d).
Definition announce (name : list N) (w : words) : list N :=
  txt_entry (T"StationName=" ++ name) ++ txt_entry (T"StationUUID=" ++ station_text w).

(** std::string::find of one character and rfind of a text. *)
Fixpoint find_char (c : N) (s : list N) : option nat :=
  match s with
  | [] => None
  | x :: r => if x =? c then Some O else match find_char c r with Some i => Some (S i) | None => None end
  end.
Fixpoint starts_with (p s : list N) : bool :=
  match p, s with [], _ => true | x :: p', y :: s' => (x =? y) && starts_with p' s' | _ :: _, [] => false end.
Fixpoint last_at (p s : list N) : option nat :=
  match s with
  | [] => if starts_with p [] then Some O else None
  | _ :: r => match last_at p r with Some i => Some (S i) | None => if starts_with p s then Some O else None end
  end.
(** mDNS_Client_Task, 571-595.  [fuel] counts the passes of the do-while loop; [Loop] means it did not end
    within them.  The [continue] of line 579 jumps to the loop condition without moving [ptr].
    Line 573 reads the terminating zero when the record is empty; substr throws when its position is
    beyond the end. *)
Definition is_zero_at (o : option nat) : bool := match o with Some O => true | _ => false end.
Fixpoint txt_loop (fuel : nat) (txt : list N) (ptr : nat) (name uuid : list N) : res (list N * list N) :=
  match fuel with
  | O => Loop
  | S f =>
    let len := nth ptr txt 0 in
    let next ptr name uuid := if (Nat.ltb ptr (List.length txt)) then txt_loop f txt ptr name uuid else Ok (name, uuid) in
    if (Nat.ltb (List.length txt) (ptr + 1)) then Exc else
    let t := firstn (N.to_nat len) (skipn (ptr + 1) txt) in
    match find_char 61 t with
    | None => next ptr name uuid
    | Some eq =>
      let v := skipn (eq + 1) t in
      if is_zero_at (last_at (T"StationName=") t) then
        match set_from_chars v with None => Exc | Some u => next (ptr + N.to_nat len + 1)%nat u uuid end
      else if is_zero_at (last_at (T"StationUUID=") t) then
        match set_from_chars v with None => Exc | Some u => next (ptr + N.to_nat len + 1)%nat name u end
      else next (ptr + N.to_nat len + 1)%nat name uuid
    end
  end.
(** 568-598: the parsed name is copied with strcpy into a 1024 byte field; StationUUID starts at zero. *)
Definition parse_txt (fuel : nat) (wraps : bool) (txt : list N) : res (list N * words) :=
  do r <- txt_loop fuel txt 0 [] [];
  do w <- read_mvr_uuid wraps no_words (snd r);
  match to_bytes (fst r) with
  | None => Exc
  | Some b => let b := upto_nul b in if nlen b <? 1024 then Ok (b, rd_val w) else UB
  end.

(** ** mDNS_Filter_Queries, 477-538 *)
Definition service_suffix : list N := T"_mvrxchange._tcp.local.".
(** 484-492: an entry with the same port and addresses is already in the output. *)
Definition same_address (q r : query) : bool :=
  (qPort q =? qPort r) && texts_eqb (qIP4 q) (qIP4 r) && texts_eqb (qIP6 q) (qIP6 r).
(** 500-519; [own]: the "ip:port" texts of the own announcements. *)
Definition is_own (own : list (list N)) (q : query) : bool :=
  existsb (fun ip => existsb (str_eqb (ip ++ T":" ++ dec (qPort q))) own) (qIP4 q).
(** 527-529. *)
Definition is_service (q : query) : bool :=
  negb (nlen (qService q) <? nlen service_suffix) && starts_with (rev service_suffix) (rev (qService q)).
Fixpoint filter_queries (own : list (list N)) (out : list query) (l : list query) : list query :=
  match l with
  | [] => out
  | q :: r =>
    if existsb (same_address q) out then filter_queries own out r
    else if (nlen (qIP4 q) =? 0) then filter_queries own out r
    else if is_own own q then filter_queries own out r
    else if negb (is_service q) then filter_queries own out r
    else filter_queries own (out ++ [q]) r
  end.

(** ** mDNS_Client_Task, 540-619, on the answers [qs] of the query *)
Definition to_found (fuel : nat) (wraps : bool) (q : query) : res found :=
  do p <- parse_txt fuel wraps (qTxt q);
  Ok (mkFound (fixed_text (qHost q)) (snd p) (fst p) (map fixed_text (qIP4 q)) (map fixed_text (qIP6 q)) (qPort q)).
Fixpoint all_found (fuel : nat) (wraps : bool) (l : list query) : res (list found) :=
  match l with
  | [] => Ok []
  | q :: r => do x <- to_found fuel wraps q; do y <- all_found fuel wraps r; Ok (x :: y)
  end.
Definition client_task (fuel : nat) (wraps : bool) (own : list (list N)) (qs : list query) : res (list found) :=
  all_found fuel wraps (filter_queries own [] qs).

(** ** Group members *)
Definition member_of (f : found) : member := mkMember (fdIPs f) (fdPort f) (fdName f) (fdStation f).
(** GetMembersOfService, 391-417. *)
Definition members_of_service (l : list found) (name : list N) : list member :=
  map member_of (filter (fun f => str_eqb (fdService f) (name ++ T"." ++ service_suffix)) l).
(** GetSingleMemberOfService, 419-441. *)
Definition single_member (l : list found) (u : words) : option member :=
  match List.find (fun f => words_eqb (fdStation f) u) l with
  | Some f => Some (mkMember (fdIPs f) (fdPort f) (fdName f) u)
  | None => None
  end.
(** 307-317: replace the first entry with the same addresses and port, or append. *)
Definition same_place (a b : member) : bool := texts_eqb (gIPs a) (gIPs b) && (gPort a =? gPort b).
Fixpoint put_member (g : list member) (m : member) : list member :=
  match g with [] => [m] | x :: r => if same_place x m then m :: r else x :: put_member r m end.

(** ** The state of the service and the events that change it.  [sPending]: identifiers of the functions
    posted by line 322 and not yet run. *)
Record service := mkService { sGroup : list member; sFound : list found; sInit : bool; sOwn : list (list N); sPending : list words }.
Definition new_service : service := mkService [] [] false [] [].
Inductive event :=
| EConnect (name : list N) (own : list (list N)) (qs : list query)  (* ConnectToLocalService *)
| EJoin (u : words)                                                  (* TCP_OnIncommingMessage with MVR_JOIN *)
| ELeave (u : words)                                                 (* TCP_OnIncommingMessage with MVR_LEAVE *)
| ETick (qs : list query)                                            (* mDNS_Client_Tick, 443-450 *)
| ERun (qs : list query).                                            (* the function posted by line 322 *)
Section Events.
Variable fuel : nat.
Variable wraps : bool.
Definition set_group (s : service) (g : list member) : service := mkService g (sFound s) (sInit s) (sOwn s) (sPending s).
Definition set_found (s : service) (f : list found) : service := mkService (sGroup s) f true (sOwn s) (sPending s).
(** ConnectToLocalService, 46-126: the sockets are replaced, the query runs if none has run before, then the
    group list is replaced.  The messages sent are not modelled here. *)
Definition on_connect (s : service) (name : list N) (own : list (list N)) (qs : list query) : res service :=
  let s := mkService (sGroup s) (sFound s) (sInit s) own (sPending s) in
  do s <- (if sInit s then Ok s else do f <- client_task fuel wraps own qs; Ok (set_found s f));
  Ok (set_group s (members_of_service (sFound s) (filter_service_name name))).
(** 301-332. *)
Definition on_join (s : service) (u : words) : service :=
  match single_member (sFound s) u with
  | Some m => set_group s (put_member (sGroup s) m)
  | None => mkService (sGroup s) (sFound s) (sInit s) (sOwn s) (sPending s ++ [u])
  end.
(** 334-347: [newItem] is only filled in when the station is found, so the identifier compared is zero. *)
Definition on_leave (s : service) (u : words) : service :=
  match single_member (sFound s) u with
  | Some _ => s
  | None => set_group s (filter (fun m => negb (words_eqb (gStation m) no_words)) (sGroup s))
  end.
(** 322-330. *)
Definition on_run (s : service) (qs : list query) : res service :=
  match sPending s with
  | [] => Ok s
  | u :: r =>
    do f <- client_task fuel wraps (sOwn s) qs;
    let s := mkService (sGroup s) f true (sOwn s) r in
    Ok (match single_member f u with Some m => set_group s (sGroup s ++ [m]) | None => s end)
  end.
Definition on_event (s : service) (e : event) : res service :=
  match e with
  | EConnect name own qs => on_connect s name own qs
  | EJoin u => Ok (on_join s u)
  | ELeave u => Ok (on_leave s u)
  | ETick qs => do f <- client_task fuel wraps (sOwn s) qs; Ok (set_found s f)
  | ERun qs => on_run s qs
  end.
Fixpoint history (s : service) (l : list event) : res service :=
  match l with [] => Ok s | e :: r => do s <- on_event s e; history s r end.
End Events.

(** ** Send_message, 210-278: who gets the message, one transmission per address of a member (245-255). *)
Definition recipient_filter (m : msg) : list words :=
  match mType m with MCommit => cFor (mCommit m) | MRequest => rFrom (mRequest m) | _ => [] end.
Definition passes (flt : list words) (e : member) : bool :=
  (nlen flt =? 0) || existsb (words_eqb (gStation e)) flt.
Definition transmissions (g : list member) (m : msg) : list (list N * N) :=
  flat_map (fun e => if passes (recipient_filter m) e then map (fun ip => (ip, gPort e)) (gIPs e) else []) g.

(** ** GetLocalServiceAt, 177-188 *)
Definition service_at (l : list found) (i : N) : res (option found) :=
  if nlen l <? i then Ok None
  else match nth_error l (N.to_nat i) with Some f => Ok (Some f) | None => UB end.
