(** Model of the MVRxchange packet (mvrxchange_message.cpp/.h) and of the
    growable byte buffer it lives in (mvrxchange_dynamic_buffer.cpp).

    Memory is explicit: a heap block has a size and a partial content
    ([None] = never written).  Every access outside a block is the outcome
    [OutOfBounds]; an allocation request the C++ runtime must refuse
    (more than PTRDIFF_MAX bytes) is the outcome [Throws]. *)
From Coq Require Import List NArith Bool.
From Verif Require Import Bytes.
Import ListNotations.
Open Scope N_scope.

Inductive res (A : Type) : Type :=
| Ok (a : A)
| OutOfBounds      (* undefined behaviour: access outside an allocation *)
| Throws.          (* a C++ exception leaves the function *)
Arguments Ok {A} a.  Arguments OutOfBounds {A}.  Arguments Throws {A}.

Definition bind {A B} (r : res A) (f : A -> res B) : res B :=
  match r with Ok a => f a | OutOfBounds => OutOfBounds | Throws => Throws end.

(** A heap block obtained with [new char[bsize]]. *)
Record block := { bsize : N; bget : N -> option N }.

(** [new char[n]]: uninitialised content.  mvrxchange_dynamic_buffer.cpp:83,107,138,167 *)
Definition new_block (n : N) : block := {| bsize := n; bget := fun _ => None |}.

(** memcpy of a byte list into a block at offset [off]. *)
Definition blk_write (b : block) (off : N) (l : list N) : res block :=
  if off + nlen l <=? bsize b
  then Ok {| bsize := bsize b;
             bget := fun i => if (off <=? i) && (i <? off + nlen l)
                              then nth_error l (N.to_nat (i - off)) else bget b i |}
  else OutOfBounds.

(** memcpy(dst, src, n) between blocks, both at offset 0. *)
Definition blk_copy (dst src : block) (n : N) : res block :=
  if (n <=? bsize dst) && (n <=? bsize src)
  then Ok {| bsize := bsize dst; bget := fun i => if i <? n then bget src i else bget dst i |}
  else OutOfBounds.

(** Read [n] bytes at [off]; [None] elements are indeterminate bytes. *)
Definition blk_cells (b : block) (off : N) (n : nat) : list (option N) :=
  map (fun k => bget b (off + N.of_nat k)) (seq 0 n).
Definition blk_read (b : block) (off : N) (n : nat) : res (list (option N)) :=
  if off + N.of_nat n <=? bsize b then Ok (blk_cells b off n) else OutOfBounds.

(** MVRxchangeDynamicBuffer: fBuffer, fBufferSize, fAllocatedMemory
    (mvrxchange_dynamic_buffer.h:26-29).  The reference count is modelled
    separately in [PacketModel]. *)
Record dynbuf := { dbuf : option block; dsize : N; dalloc : N }.

(** Default constructor, mvrxchange_dynamic_buffer.cpp:12-19. *)
Definition dyn_empty : dynbuf := {| dbuf := None; dsize := 0; dalloc := 0 |}.

(** PTRDIFF_MAX on the 64-bit platform: [new char[n]] beyond it throws. *)
Definition max_alloc : N := 9223372036854775807.

(** Copy of the old content when a buffer exists (lines 108-112, 139-143, 168-173). *)
Definition copy_old (old : option block) (dst : block) (n : N) : res block :=
  match old with None => Ok dst | Some b => blk_copy dst b n end.

(** GrowTo, mvrxchange_dynamic_buffer.cpp:126-153.  Note the size bookkeeping of
    line 146: the used size grows by the *requested total*. *)
Definition grow_to (d : dynbuf) (size : N) : res dynbuf :=
  let need := (size + 1) mod two64 in
  if dalloc d <? need then
    if max_alloc <? need then Throws else
    bind (copy_old (dbuf d) (new_block need) (dsize d)) (fun t =>
    Ok {| dbuf := Some t; dsize := (dsize d + size) mod two64; dalloc := need |})
  else Ok d.

(** Append, mvrxchange_dynamic_buffer.cpp:88-123 ([k_5_MegaByte] = 5*1024, line 9). *)
Definition append (d : dynbuf) (l : list N) : res dynbuf :=
  if nlen l =? 0 then Ok d else
  let need := (dsize d + nlen l) mod two64 in
  if need <=? dalloc d then
    match dbuf d with
    | None => OutOfBounds
    | Some b => bind (blk_write b (dsize d) l) (fun b' =>
        Ok {| dbuf := Some b'; dsize := (dsize d + nlen l) mod two64; dalloc := dalloc d |})
    end
  else
    let al := (need + 5120) mod two64 in
    if max_alloc <? al then Throws else
    bind (copy_old (dbuf d) (new_block al) (dsize d)) (fun t =>
    bind (blk_write t (dsize d) l) (fun t' =>
    Ok {| dbuf := Some t'; dsize := (dsize d + nlen l) mod two64; dalloc := al |})).

(** FromBuffer(data,length), mvrxchange_dynamic_buffer.cpp:78-86 (DisposeBuffer drops the old block). *)
Definition from_buffer (d : dynbuf) (l : list N) : res dynbuf :=
  if nlen l =? 0 then Ok d else
  if max_alloc <? nlen l then Throws else
  bind (blk_write (new_block (nlen l)) 0 l) (fun b =>
  Ok {| dbuf := Some b; dsize := nlen l; dalloc := nlen l |}).

(** Reserve, mvrxchange_dynamic_buffer.cpp:155-182. *)
Definition reserve (d : dynbuf) (size : N) : res dynbuf :=
  let need := (size + 1) mod two64 in
  if dalloc d <? need then
    if max_alloc <? need then Throws else
    match dbuf d with
    | None => Ok {| dbuf := Some (new_block need); dsize := dsize d; dalloc := need |}
    | Some b => bind (blk_copy (new_block need) b (dsize d)) (fun t =>
        Ok {| dbuf := Some t; dsize := (dsize d + size) mod two64; dalloc := need |})
    end
  else Ok d.

(** ** The packet *)

(** kMVR_Package_Flag, mvrxchange_prefix.h; header sizes, mvrxchange_message.h:14-23. *)
Definition pkg_flag : N := 778682.
Definition header_len : N := 28.

(** swap_endian<T>, mvrxchange_message.cpp:10-27: reverses the memory image of an
    [n]-byte integer. *)
Definition swap_endian (n : nat) (v : N) : N := le_val (rev (le_bytes n v)).

(** MVRxchangePacket, mvrxchange_message.h:54-62.  [pversion] is uninitialised by the
    constructor, so the constructor takes an arbitrary value for it. *)
Record packet := {
  pflag : N; pversion : N; pnumber : N; pcount : N; ptype : N; pbody : N; pdata : dynbuf }.

(** Constructor, mvrxchange_message.cpp:30-39. *)
Definition packet_new (indeterminate_version : N) : res packet :=
  bind (grow_to dyn_empty (30 * 1024 * 1024)) (fun d =>
  Ok {| pflag := pkg_flag; pversion := indeterminate_version; pnumber := 0; pcount := 0;
        ptype := 0; pbody := 0; pdata := d |}).

(** GetLength, line 67-70 (size_t arithmetic). *)
Definition packet_length (p : packet) : N := (header_len + pbody p) mod two64.

Definition with_block {A} (d : dynbuf) (f : block -> res A) : res A :=
  match dbuf d with None => OutOfBounds | Some b => f b end.

Definition set_block (d : dynbuf) (b : block) : dynbuf :=
  {| dbuf := Some b; dsize := dsize d; dalloc := dalloc d |}.

Definition set_data (p : packet) (d : dynbuf) : packet :=
  {| pflag := pflag p; pversion := pversion p; pnumber := pnumber p; pcount := pcount p;
     ptype := ptype p; pbody := pbody p; pdata := d |}.

Definition set_fields (p : packet) (fl ve nu co ty bo : N) : packet :=
  {| pflag := fl; pversion := ve; pnumber := nu; pcount := co; ptype := ty; pbody := bo;
     pdata := pdata p |}.

(** SetBody, mvrxchange_message.cpp:87-92. *)
Definition set_body (p : packet) (body : list N) : res packet :=
  bind (grow_to (pdata p) ((header_len + nlen body) mod two64)) (fun d =>
  with_block d (fun b => bind (blk_write b header_len body) (fun b' =>
  Ok (set_data (set_fields p (pflag p) (pversion p) (pnumber p) (pcount p) (ptype p) (nlen body))
               (set_block d b'))))).

(** EncodeHeader, mvrxchange_message.cpp:121-144: swap every field, memcpy it to the
    buffer, swap back. *)
Definition header_image (fl ve nu co ty bo : N) : list N :=
  le_bytes 4 (swap_endian 4 fl) ++ le_bytes 4 (swap_endian 4 ve) ++ le_bytes 4 (swap_endian 4 nu) ++
  le_bytes 4 (swap_endian 4 co) ++ le_bytes 4 (swap_endian 4 ty) ++ le_bytes 8 (swap_endian 8 bo).
Definition encode_header (p : packet) : res packet :=
  with_block (pdata p) (fun b =>
  bind (blk_write b 0 (header_image (pflag p) (pversion p) (pnumber p) (pcount p) (ptype p) (pbody p)))
  (fun b' =>
  let s4 v := swap_endian 4 (swap_endian 4 v) in
  Ok (set_data (set_fields p (s4 (pflag p)) (s4 (pversion p)) (s4 (pnumber p)) (s4 (pcount p))
                             (s4 (ptype p)) (swap_endian 8 (swap_endian 8 (pbody p))))
               (set_block (pdata p) b')))).

(** All bytes of a read are determinate. *)
Fixpoint all_some (l : list (option N)) : option (list N) :=
  match l with
  | [] => Some []
  | None :: _ => None
  | Some x :: l' => match all_some l' with None => None | Some y => Some (x :: y) end
  end.

(** memcpy(&field, GetData()+off, n) followed by swap_endian.  Reading an
    indeterminate byte is reported as [OutOfBounds] too (the code never decodes
    before 28 bytes have been received). *)
Definition fetch (b : block) (off : N) (n : nat) : res N :=
  bind (blk_read b off n) (fun cells =>
  match all_some cells with
  | None => OutOfBounds
  | Some l => Ok (swap_endian n (le_val l))
  end).

(** DecodeHeader, mvrxchange_message.cpp:94-119.  Line 116 grows to the body length
    only, without the header length. *)
Definition decode_header (p : packet) : res (bool * packet) :=
  with_block (pdata p) (fun b =>
  bind (fetch b 0 4) (fun fl =>
  if negb (fl =? pkg_flag)
  then Ok (false, set_fields p fl (pversion p) (pnumber p) (pcount p) (ptype p) (pbody p))
  else
  bind (fetch b 4 4) (fun ve => bind (fetch b 8 4) (fun nu => bind (fetch b 12 4) (fun co =>
  bind (fetch b 16 4) (fun ty => bind (fetch b 20 8) (fun bo =>
  bind (grow_to (pdata p) bo) (fun d =>
  Ok (true, set_data (set_fields p fl ve nu co ty bo) d))))))))).

(** GetBody/GetBodyLength as a byte sequence, lines 72-85. *)
Definition get_body (p : packet) : res (list (option N)) :=
  with_block (pdata p) (fun b => blk_read b header_len (N.to_nat (pbody p))).

(** The bytes put on the wire: async_write of GetData(), GetLength()
    (mvrxchange_session.cpp:72, mvrxchange_client.cpp:80-81). *)
Definition wire (p : packet) : res (list (option N)) :=
  with_block (pdata p) (fun b => blk_read b 0 (N.to_nat (packet_length p))).

(** The receiver: async_read of 28 bytes into GetData(), DecodeHeader, async_read of
    GetBodyLength() bytes into GetBody() (mvrxchange_session.cpp:25-64).  [recv_header]
    stores 28 received bytes; [recv_body] stores the received body. *)
Definition recv_header (p : packet) (h : list N) : res packet :=
  with_block (pdata p) (fun b => bind (blk_write b 0 h) (fun b' =>
  Ok (set_data p (set_block (pdata p) b')))).
Definition recv_body (p : packet) (body : list N) : res packet :=
  with_block (pdata p) (fun b => bind (blk_write b header_len body) (fun b' =>
  Ok (set_data p (set_block (pdata p) b')))).

(** Receiving a whole packet; [None] = header refused. *)
Definition receive (p : packet) (h body : list N) : res (option packet) :=
  bind (recv_header p h) (fun p1 =>
  bind (decode_header p1) (fun r =>
  if fst r then bind (recv_body (snd r) body) (fun p2 => Ok (Some p2)) else Ok None)).
