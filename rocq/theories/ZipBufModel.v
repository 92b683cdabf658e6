(** Models of the byte buffers behind an archive:
    - ZIPFileBuffer (Wrapper/ZIPFileBuffer.cpp), the growing write buffer;
    - CZIPFileIOBufferImpl (Wrapper/ZIPFileImpl.cpp:47-110), the in-memory file content
      (ISceneDataZipBuffer and IXMLFileIOBufferImpl, XmlFileHelper.cpp:2520-2644, have the
      same SetData/CopyDataInto/GetDataSize).
    A heap block is a list of cells; [None] is a byte that was never written.  Accesses
    outside the block are [BOut], using an unwritten byte as data is [BUninit]. *)
From Coq Require Import List NArith Bool.
From Verif Require Import Bytes.
Import ListNotations.
Open Scope N_scope.

Definition cells := list (option N).

Inductive bres (A : Type) : Type := BOk (a : A) | BOut | BUninit.
Arguments BOk {A} a.  Arguments BOut {A}.  Arguments BUninit {A}.
Definition bbind {A B} (r : bres A) (f : A -> bres B) : bres B :=
  match r with BOk a => f a | BOut => BOut | BUninit => BUninit end.

(** new Uint8[n] *)
Definition fresh (n : N) : cells := repeat None (N.to_nat n).

(** memcpy(dst + off, src, |src|) *)
Definition put (off : N) (src : cells) (dst : cells) : bres cells :=
  if off + nlen src <=? nlen dst
  then BOk (firstn (N.to_nat off) dst ++ src ++ skipn (N.to_nat (off + nlen src)) dst)
  else BOut.

(** the source of a memcpy of [n] bytes from [src + off] *)
Definition get (off n : N) (src : cells) : bres cells :=
  if off + n <=? nlen src then BOk (slice off n src) else BOut.

(** bytes whose value is then used *)
Fixpoint defined (c : cells) : bres (list N) :=
  match c with
  | [] => BOk []
  | None :: _ => BUninit
  | Some b :: c' => bbind (defined c') (fun l => BOk (b :: l))
  end.

Definition u64 (x : N) : N := x mod two64.

(** ** ZIPFileBuffer *)
Record zbuf := { zb_mem : option cells;   (* fpZIPFileBuffer *)
                 zb_size : N;             (* fZIPFileBufferSize *)
                 zb_alloc : N }.          (* fAllocatedMemorySize *)

(** Constructor, ZIPFileBuffer.cpp:11-16. *)
Definition zb_init : zbuf := {| zb_mem := None; zb_size := 0; zb_alloc := 0 |}.

Definition mem_of (m : option cells) : cells := match m with Some c => c | None => [] end.

(** Write, ZIPFileBuffer.cpp:95-130.  The position argument is ignored there.  (A memcpy of
    zero bytes to a null pointer is treated as harmless.) *)
Definition zb_write (position : N) (data : list N) (b : zbuf) : bres zbuf :=
  let need := u64 (zb_size b + nlen data) in
  if need <=? zb_alloc b then
    bbind (put (zb_size b) (map Some data) (mem_of (zb_mem b))) (fun m =>
    BOk {| zb_mem := (match zb_mem b with None => None | Some _ => Some m end);
           zb_size := u64 (zb_size b + nlen data); zb_alloc := zb_alloc b |})
  else
    let alloc := u64 (need + 5120) in
    let tmp := fresh alloc in
    bbind (match zb_mem b with
           | None => BOk tmp
           | Some m => bbind (get 0 (zb_size b) m) (fun old => put 0 old tmp)
           end) (fun tmp1 =>
    bbind (put (zb_size b) (map Some data) tmp1) (fun tmp2 =>
    BOk {| zb_mem := Some tmp2; zb_size := u64 (zb_size b + nlen data); zb_alloc := alloc |})).

(** CleanBuffer, ZIPFileBuffer.cpp:132-142. *)
Definition zb_clean (b : zbuf) : zbuf := zb_init.

(** Read, ZIPFileBuffer.cpp:89-93 (reading null memory of size 0 is harmless). *)
Definition zb_read (position n : N) (b : zbuf) : bres (list N) :=
  bbind (get position n (mem_of (zb_mem b))) defined.

(** The bytes written to disk by Close (67-84) and handed out by Copy (145-150). *)
Definition zb_contents (b : zbuf) : bres (list N) := zb_read 0 (zb_size b) b.

Inductive zbop := ZWrite (position : N) (data : list N) | ZClean.
Fixpoint zb_run (ops : list zbop) (b : zbuf) : bres zbuf :=
  match ops with
  | [] => BOk b
  | ZWrite p d :: ops' => bbind (zb_write p d b) (zb_run ops')
  | ZClean :: ops' => zb_run ops' (zb_clean b)
  end.

(** ** CZIPFileIOBufferImpl *)
Record iobuf := { io_mem : option cells;  (* fpZIPDataBuffer, a block of size + 1 bytes *)
                  io_size : N }.          (* fZIPDataBufferSize *)

(** Constructor, ZIPFileImpl.cpp:47-51. *)
Definition io_init : iobuf := {| io_mem := None; io_size := 0 |}.

(** SetData, ZIPFileImpl.cpp:99-110.  The argument is assumed not to alias the buffer. *)
Definition io_set (data : list N) (b : iobuf) : bres iobuf :=
  bbind (put 0 (map Some data) (fresh (u64 (nlen data + 1)))) (fun m =>
  BOk {| io_mem := Some m; io_size := nlen data |}).

(** AppendData, ZIPFileImpl.cpp:76-97. *)
Definition io_append (data : list N) (b : iobuf) : bres iobuf :=
  match io_mem b with
  | None => io_set data b
  | Some m =>
      let tmp := fresh (u64 (io_size b + nlen data + 1)) in
      bbind (get 0 (io_size b) m) (fun old =>
      bbind (put 0 old tmp) (fun t1 =>
      bbind (put (io_size b) (map Some data) t1) (fun t2 =>
      let size := u64 (io_size b + nlen data) in
      bbind (get 0 (u64 (size + 1)) t2) (fun all =>
      bbind (put 0 all (fresh (u64 (size + 1)))) (fun m' =>
      BOk {| io_mem := Some m'; io_size := size |})))))
  end.

(** CopyDataInto, ZIPFileImpl.cpp:66-74: [None] = kVCOMError_NotInitialized, nothing
    copied; otherwise the bytes copied to the start of the destination. *)
Definition io_copy (n : N) (b : iobuf) : bres (option (list N)) :=
  match io_mem b with
  | None => BOk None
  | Some m => bbind (get 0 (if io_size b <=? n then io_size b else n) m) (fun c =>
              bbind (defined c) (fun l => BOk (Some l)))
  end.

Inductive ioop := IOSet (data : list N) | IOAppend (data : list N).
Fixpoint io_run (ops : list ioop) (b : iobuf) : bres iobuf :=
  match ops with
  | [] => BOk b
  | IOSet d :: ops' => bbind (io_set d b) (io_run ops')
  | IOAppend d :: ops' => bbind (io_append d b) (io_run ops')
  end.
