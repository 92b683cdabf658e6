(** DMX channels, channel functions and channel sets (GDTFManager.cpp).  The user does not abort
    ([CheckAbort] is false).  Only names and DMX values of functions and sets are modelled. *)
From Coq Require Import String List NArith ZArith Bool.
From Verif Require Import Bytes Txt StringModel NumModel ConvModel.
Import ListNotations.
Open Scope N_scope.

(** ** Channel resolution *)
(** The offsets of a channel (coarse, fine, ultra, uber) are Uint16, GDTFManager.h:1788-1791.
    [GetChannelBitResolution], GDTFManager.cpp:5740-5748. *)
Definition bit_resolution (o : N * N * N * N) : N :=
  let '(coarse, fine, ultra, uber) := o in
  if coarse =? 0 then 2 else if fine =? 0 then 1 else if ultra =? 0 then 2 else if uber =? 0 then 3 else 4.
(** [GdtfDmxChannel::GetChannelMaxDmx], 5750-5753. *)
Definition channel_max (o : N * N * N * N) : N := max_dmx (bit_resolution o).
(** [IsVirtual], 5755-5759. *)
Definition is_virtual (o : N * N * N * N) : bool :=
  let '(coarse, fine, ultra, uber) := o in (coarse =? 0) && (fine =? 0) && (ultra =? 0) && (uber =? 0).
(** [SetDmxCoarse] .. [SetDmxUber], 5474-5499: a Sint32 stored in a Uint16. *)
Definition set_offset (z : Z) : N := to_unsigned 16 z.

(** ** Channel functions *)
(** [GetEndAdress], 6508-6520, with the start value of the next function, if there is one.  The result
    computed in the branch for equal starts is dropped; the line below computes the same. *)
Definition end_address (max : N) (start : N) (next : option N) : N :=
  match next with
  | Some n => if n <=? start then max else (n + two64 - 1) mod two64
  | None => max
  end.
(** The ranges of the functions of a logical channel with start values [starts]: the next function is
    the next one in the list ([AddDmxChannelFunction] 5830-5840, OnReadFromNode 5892); [follow] is
    the start of the function after the last one. *)
Fixpoint ranges (max : N) (starts : list N) (follow : option N) : list (N * N) :=
  match starts with
  | [] => []
  | a :: r => (a, end_address max a (match r with b :: _ => Some b | [] => follow end)) :: ranges max r follow
  end.
(** [GdtfDmxLogicalChannel::OnReadFromNode], 5879-5910: the start values are read
    ([GdtfDmxChannelFunction::OnReadFromNode], 6271: a variable holding 0) and the first one is set to 0.
    The second component counts the reported errors. *)
Fixpoint read_functions (reso : N) (texts : list (list N)) (first : bool) : res (list N * N) :=
  match texts with
  | [] => Ok ([], 0)
  | t :: r =>
    do v <- read_dmx 0 t reso;
    do rest <- read_functions reso r false;
    if first && negb (rd_val v =? 0) then Ok (0 :: fst rest, rd_errs v + 1 + snd rest)
    else Ok (rd_val v :: fst rest, rd_errs v + snd rest)
  end.
(** [GdtfDmxChannel::OnReadFromNode], 5571-5603: every logical channel is read, and the last function
    of a logical channel is linked to the first function of the following one if both have functions. *)
Fixpoint read_logical (reso : N) (nodes : list (list (list N))) : res (list (list N) * N) :=
  match nodes with
  | [] => Ok ([], 0)
  | t :: r =>
    do a <- read_functions reso t true;
    do rest <- read_logical reso r;
    Ok (fst a :: fst rest, snd a + snd rest)
  end.
Fixpoint channel_ranges (max : N) (logical : list (list N)) : list (list (N * N)) :=
  match logical with
  | [] => []
  | l :: r => ranges max l (match r with (b :: _) :: _ => Some b | _ => None end) :: channel_ranges max r
  end.

(** ** Channel sets *)
(** GDTFManager.h:1490-1500, GDTFManager.cpp:6751-6775: [cs_end] is 2^64-1 while not set; [cs_next]
    tells whether fNextChannelSet is set. *)
Record cset := mkSet { cs_name : list N; cs_start : N; cs_end : N; cs_next : bool }.
Definition no_end : N := two64 - 1.
Definition with_start (s : cset) (v : N) : cset := mkSet (cs_name s) v (cs_end s) (cs_next s).
Definition with_end (s : cset) (v : N) : cset := mkSet (cs_name s) (cs_start s) v (cs_next s).
Definition with_next (s : cset) : cset := mkSet (cs_name s) (cs_start s) (cs_end s) true.
(** [GetDmxEnd], 6937-6941; [fend] is [GetEndAdress] of the function. *)
Definition dmx_end (fend : N) (s : cset) : N :=
  if negb (cs_next s) && (cs_end s =? no_end) then fend else cs_end s.

(** 6322-6338: the search for an unused start value, for virtual channels. *)
Fixpoint next_free (fuel : nat) (sets : list cset) (max cur : N) : res (bool * N) :=
  if cur <? max then
    if existsb (fun s => cs_start s =? cur) sets then
      match fuel with O => Loop | S f => next_free f sets max (cur + 1) end
    else Ok (false, cur)
  else Ok (true, cur).
(** 6341-6355: from the last set to the first one. *)
Fixpoint cascade (max : N) (sets : list cset) : list cset :=
  match sets with
  | [] => []
  | s :: r =>
    let r' := cascade max r in
    let next := match r' with [] => max | t :: _ => cs_start t end in
    let allowed := if 0 <? next then next - 1 else 0 in
    (if next <=? cs_start s then with_start s allowed else s) :: r'
  end.
(** [SetNextChannelSet], 6783-6795, on the last set, and 6364-6374: [None] if the new set is dropped. *)
Fixpoint link (sets : list cset) (s : cset) : option (list cset) :=
  match sets with
  | [] => Some [s]
  | [b] => if cs_start s <=? cs_start b then None else Some [with_next b; s]
  | a :: r => match link r s with Some l => Some (a :: l) | None => None end
  end.
(** 6307-6374: one more set that could be read; the number counts the errors. *)
Definition add_set (virtual : bool) (max : N) (sets : list cset) (s : cset) : res (list cset * N) :=
  if virtual then
    if max <=? N.of_nat (List.length sets) then Ok (sets, 1) else
    do d <- next_free (N.to_nat (max - cs_start s)) sets max (cs_start s);
    let '(dup, cur) := d in
    let sets := if dup then cascade max sets else sets in
    let cur := if dup then max else cur in
    match link sets (with_start s cur) with Some l => Ok (l, 0) | None => Ok (sets, 1) end
  else match link sets s with Some l => Ok (l, 0) | None => Ok (sets, 1) end.
(** 6295-6375 over the nodes (name and DMXFrom); a set whose value is refused is dropped
    ([GdtfDmxChannelSet::OnReadFromNode], 6855-6877). *)
Fixpoint read_set_nodes (virtual : bool) (reso : N) (sets : list cset) (nodes : list (list N * list N)) : res (list cset * N) :=
  match nodes with
  | [] => Ok (sets, 0)
  | (name, from) :: r =>
    do v <- read_dmx 0 from reso;
    if rd_ok v then
      do a <- add_set virtual (max_dmx reso) sets (mkSet name (rd_val v) no_end false);
      do rest <- read_set_nodes virtual reso (fst a) r;
      Ok (fst rest, rd_errs v + snd a + snd rest)
    else
      do rest <- read_set_nodes virtual reso sets r;
      Ok (fst rest, rd_errs v + snd rest)
  end.
(** 6377-6384: the end values. *)
Fixpoint set_ends (sets : list cset) : list cset :=
  match sets with
  | a :: r => match r with b :: _ => with_end a ((cs_start b + two64 - 1) mod two64) | [] => a end :: set_ends r
  | [] => []
  end.
(** [GdtfDmxChannelFunction::OnReadFromNode], the channel sets. *)
Definition read_sets (virtual : bool) (reso : N) (nodes : list (list N * list N)) : res (list cset * N) :=
  do r <- read_set_nodes virtual reso [] nodes; Ok (set_ends (fst r), snd r).

(** [GdtfDmxChannelFunction::OnPrintToFile], 6181-6248.  [sort] is std::sort by start value. *)
Definition filler (a b : N) : cset := mkSet [] a b false.
Definition dec64 (v : N) : N := (v + two64 - 1) mod two64.
Definition inc64 (v : N) : N := (v + 1) mod two64.
(** 6206-6225: the sets after [first]. *)
Fixpoint fill_between (fend : N) (first : cset) (sets : list cset) : list cset :=
  match sets with
  | [] => []
  | second :: r =>
    let diff := (cs_start second + two64 - dmx_end fend first) mod two64 in
    (if 1 <? diff then [filler (inc64 (dmx_end fend first)) (dec64 (cs_start second))] else [])
    ++ second :: fill_between fend second r
  end.
Definition fill_sets (sort : list cset -> list cset) (fstart fend : N) (sets : list cset) : list cset :=
  match sort sets with
  | [] => []
  | a :: r =>
    (if fstart <? cs_start a then [filler fstart (dec64 (cs_start a))] else [])
    ++ a :: fill_between fend a r
    ++ (let l := last r a in if dmx_end fend l <? fend then [filler (inc64 (dmx_end fend l)) fend] else [])
  end.
(** The nodes written, 6243-6248 and [GdtfDmxChannelSet::OnPrintToFile], 6834-6853. *)
Definition set_nodes (reso : N) (sets : list cset) : list (list N * list N) :=
  map (fun s => (cs_name s, write_dmx (cs_start s) reso false)) sets.
