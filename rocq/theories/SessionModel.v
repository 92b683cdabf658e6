(** One connection: the server session (src/mvrxchange/mvrxchange_session.cpp) and the client
    (src/mvrxchange/mvrxchange_client.cpp), on the packet of PacketModel and the messages of MessageModel.

    The completion handlers of one session run one after another on the thread of the server
    (mvrxchange_server.cpp:54-57).  [async_read] completes when all bytes it asked for have arrived or with an
    error; it takes no bytes beyond those.  There is no timer on the server side. *)
From Coq Require Import List NArith ZArith String Bool.
From Verif Require Import Bytes Txt UtfModel NumModel JsonModel MessageModel PacketModel.
Import ListNotations.
Open Scope N_scope.

(** What happens to the socket.  [alive] in [Data]: remote_endpoint() still succeeds when the handler of this
    data runs (session.cpp:41-44; it throws otherwise). *)
Inductive net_event := Data (bytes : list N) (alive : bool) | Failed | Sent.
(** [Crashed]: undefined behaviour, or an exception that leaves the thread function of the server and so ends the
    program (mvrxchange_server.cpp:30, 54-57: no handler there). *)
Inductive phase := WaitHeader | WaitBody (p : packet) | Sending | Closed | Crashed.
Record session := mkSession {
  nPhase : phase; nInbox : list N;      (* bytes that arrived and are not yet consumed *)
  nPacket : packet;                     (* fReadMsg as constructed *)
  nCalls : list msg;                    (* messages given to TCP_OnIncommingMessage *)
  nReplies : list (N * list N) }.       (* packages given to Deliver: type and body *)

Section Session.
Variable wraps : bool.
(** The service and the user's callback: [None] when it throws (TCP_OnIncommingMessage, CMVRxchangeService.cpp:299-359). *)
Variable handler : msg -> option msg.
Variable files : list N -> list N.

Definition set_phase (s : session) (p : phase) : session := mkSession p (nInbox s) (nPacket s) (nCalls s) (nReplies s).
(** 35-49: the whole body has arrived. *)
Definition on_message (s : session) (p : packet) (alive : bool) : session :=
  match get_body p with
  | Ok cells =>
    match all_some cells with
    | None => set_phase s Crashed
    | Some b =>
      match to_external wraps (ptype p) b
              (mkMsg MUndefined (mkJoin [] [] no_words 0 0 []) empty_commit (mkRequest no_words []) no_words [] None true []) with
      | ORet m =>
        if alive then
          let s := mkSession (nPhase s) (nInbox s) (nPacket s) (nCalls s ++ [m]) (nReplies s) in
          match handler m with
          | None => set_phase s Crashed
          | Some r =>
            match from_external files r with
            | EOk q => mkSession Sending (nInbox s) (nPacket s) (nCalls s) (nReplies s ++ [q])
            | _ => set_phase s Crashed
            end
          end
        else set_phase s Crashed
      | _ => set_phase s Crashed
      end
    end
  | _ => set_phase s Crashed
  end.
(** The second async_read, 33-55: the bytes that have arrived are stored as they come. *)
Definition pump_body (s : session) (p : packet) (alive : bool) : session :=
  let have := firstn (N.to_nat (N.min (pbody p) (nlen (nInbox s)))) (nInbox s) in
  match recv_body p have with
  | Ok p' =>
    if pbody p <=? nlen (nInbox s)
    then on_message (mkSession (WaitBody p) (skipn (N.to_nat (pbody p)) (nInbox s)) (nPacket s) (nCalls s) (nReplies s)) p' alive
    else set_phase s (WaitBody p)
  | _ => set_phase s Crashed
  end.
(** The first async_read, 29-33 and 57-60. *)
Definition pump_header (s : session) (alive : bool) : session :=
  if nlen (nInbox s) <? header_len then s else
  let h := firstn (N.to_nat header_len) (nInbox s) in
  match bind (recv_header (nPacket s) h) decode_header with
  | Ok (true, p) => pump_body (mkSession (WaitBody p) (skipn (N.to_nat header_len) (nInbox s)) (nPacket s) (nCalls s) (nReplies s)) p alive
  | Ok (false, _) => set_phase s Closed
  | _ => set_phase s Crashed
  end.
Definition on_net (s : session) (e : net_event) : session :=
  match nPhase s, e with
  | WaitHeader, Data c alive => pump_header (mkSession WaitHeader (nInbox s ++ c) (nPacket s) (nCalls s) (nReplies s)) alive
  | WaitBody p, Data c alive => pump_body (mkSession (WaitBody p) (nInbox s ++ c) (nPacket s) (nCalls s) (nReplies s)) p alive
  | WaitHeader, Failed | WaitBody _, Failed => set_phase s Closed     (* 50-53, 57-60 *)
  | Sending, Sent => set_phase s Closed                               (* 73-79, with or without an error *)
  | _, _ => s
  end.
Definition start (p : packet) : session := mkSession WaitHeader [] p [] [].
Definition run_session (p : packet) (l : list net_event) : session := fold_left on_net l (start p).
End Session.

(** ** The client: [ReadMessage], mvrxchange_client.cpp:34-69, on the bytes [s] that arrive before the peer closes or the
    time runs out.  The result of DecodeHeader is not looked at (49). *)
Definition client_read (p : packet) (s : list N) : res (bool * packet) :=
  if nlen s <? header_len then Ok (false, p) else
  bind (bind (recv_header p (firstn (N.to_nat header_len) s)) decode_header) (fun r =>
  let p := snd r in
  let rest := skipn (N.to_nat header_len) s in
  bind (recv_body p (firstn (N.to_nat (N.min (pbody p) (nlen rest))) rest)) (fun p' =>
  Ok (pbody p <=? nlen rest, p'))).

(** ** Who deletes the buffer of a file.  A heap is the list of the live buffers; deleting another address is
    undefined, deleting the null pointer does nothing. *)
Definition pointer := option nat.
Definition delete_buffer (h : list nat) (p : pointer) : NumModel.res (list nat) :=
  match p with
  | None => NumModel.Ok h
  | Some a => if existsb (Nat.eqb a) h then NumModel.Ok (filter (fun x => negb (Nat.eqb a x)) h) else NumModel.UB
  end.
(** FromExternalMessage, mvrxchange_message.cpp:276-284. *)
Definition encode_deletes (h : list nat) (t : mtype) (ok : bool) (p : pointer) : NumModel.res (list nat) :=
  match t, ok with MRequestRet, true => delete_buffer h p | _, _ => NumModel.Ok h end.
(** Send_message, CMVRxchangeService.cpp:237 and 275 (the replies own buffers of their own). *)
Definition send_deletes (h : list nat) (t : mtype) (ok : bool) (p : pointer) : NumModel.res (list nat) :=
  NumModel.bind (encode_deletes h t ok p) (fun h => delete_buffer h p).
(** The server, mvrxchange_session.cpp:46-50: the received buffer [inp] is deleted after the callback, the buffer of the
    reply only by FromExternalMessage. *)
Definition reply_deletes (h : list nat) (inp : pointer) (t : mtype) (ok : bool) (p : pointer) : NumModel.res (list nat) :=
  NumModel.bind (delete_buffer h inp) (fun h => encode_deletes h t ok p).
