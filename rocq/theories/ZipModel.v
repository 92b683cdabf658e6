(** Model of the archive container (Wrapper/ZIPFileImpl.cpp, Wrapper/ZIPFileBuffer.cpp).

    The opened file is the byte buffer kept by ZIPFileBuffer ([ZipBufModel] relates that
    buffer, with its allocations, to a plain byte list).  Positions are Uint32 as in the
    C++ code, so every addition wraps at 2^32 explicitly.  Reading outside the buffer,
    copying more than 1024 bytes into the member array fReadFileName and using an
    uninitialised SZIPFileInfo are the outcome [ZUB].

    Compression (miniz), CRC-32, the clock and UTF-8 validation of names are parameters:
    the record [oracle] collects them; their contracts appear as hypotheses of the
    theorems that need them. *)
From Coq Require Import List NArith Bool.
From Verif Require Import Bytes.
Import ListNotations.
Open Scope N_scope.

Inductive zres (A : Type) : Type :=
| ZOk (a : A)
| ZUB        (* undefined behaviour *)
| ZThrow     (* a C++ exception leaves the function *)
| ZStale     (* the result depends on what an earlier call left in fReadFileName *)
| ZFuel.     (* model fuel exhausted: the loop did not stop *)
Arguments ZOk {A} a.  Arguments ZUB {A}.  Arguments ZThrow {A}.  Arguments ZStale {A}.  Arguments ZFuel {A}.

Definition zbind {A B} (r : zres A) (f : A -> zres B) : zres B :=
  match r with ZOk a => f a | ZUB => ZUB | ZThrow => ZThrow | ZStale => ZStale | ZFuel => ZFuel end.
Notation "'do!' x <- r ; k" := (zbind r (fun x => k)) (at level 200, x pattern, r at level 100, k at level 200).

Record oracle := {
  o_deflate : list N -> list N;          (* raw deflate stream, ZIPFileImpl.cpp:866-909 and 528-531 *)
  o_inflate : list N -> option (list N); (* ZIPFileImpl.cpp:810-864 *)
  o_crc     : list N -> N;               (* crc32 of miniz *)
  o_utf8    : list N -> bool }.          (* TXString(char*,len) accepts the bytes *)

Definition u32 (x : N) : N := x mod two32.
Definition u16 (x : N) : N := x mod two16.

(** Signatures, ZIPFileImpl.h:20-23; sizes, ZIPFileImpl.cpp:37-44. *)
Definition sig_local   : N := 67324752.    (* 0x04034b50 *)
Definition sig_central : N := 33639248.    (* 0x02014b50 *)
Definition sig_end     : N := 101010256.   (* 0x06054b50 *)
Definition min_zip     : N := 22.

Definition zbytes := list N.

(** Byte-wise equality of two names (memcmp after a length check, ZIPFileImpl.cpp:1283). *)
Fixpoint beq_bytes (a b : list N) : bool :=
  match a, b with
  | [], [] => true
  | x :: a', y :: b' => (x =? y) && beq_bytes a' b'
  | _, _ => false
  end.

(** ZIPFileBuffer::Read, ZIPFileBuffer.cpp:89-93. *)
Definition rd (buf : zbytes) (pos n : N) : zres (list N) :=
  if n =? 0 then ZOk [] else
  if pos + n <=? nlen buf then ZOk (slice pos n buf) else ZUB.

(** ReadLong, ZIPFileImpl.cpp:1004-1022: returns the value and the new position. *)
Definition read_long (buf : zbytes) (pos : N) : zres (N * N) :=
  if nlen buf <=? pos then ZOk (0, pos)
  else do! l <- rd buf pos 4; ZOk (le_val l, u32 (pos + 4)).

(** ReadShort, ZIPFileImpl.cpp:1024-1042. *)
Definition read_short (buf : zbytes) (pos : N) : zres (N * N) :=
  if nlen buf <=? pos then ZOk (0, pos)
  else do! l <- rd buf pos 2; ZOk (le_val l, u32 (pos + 2)).

(** ReadFromFile into fReadFileName[1024], ZIPFileImpl.cpp:1044-1051 and ZIPFileImpl.h:134. *)
Definition read_name (buf : zbytes) (pos n : N) : zres (list N * N) :=
  if 1024 <? n then ZUB else do! l <- rd buf pos n; ZOk (l, u32 (pos + n)).

(** ReadFromFile into a block of exactly [n] bytes. *)
Definition read_block (buf : zbytes) (pos n : N) : zres (list N * N) :=
  do! l <- rd buf pos n; ZOk (l, u32 (pos + n)).

(** The backward search for the end signature common to GetCentralDirPosition
    (ZIPFileImpl.cpp:1148-1160) and GetEndOfCentralDirPosition (1173-1184): [r] counts down
    to 1; the result is the position of the first match.  The check
    "position advanced" fails exactly when the read was refused. *)
Fixpoint scan_end (buf : zbytes) (r : nat) : zres (option N) :=
  match r with
  | O => ZOk None
  | S r' =>
      let pos := N.of_nat r in
      do! (v, p') <- read_long buf pos;
      if (pos <? p') && (v =? sig_end) then ZOk (Some pos) else scan_end buf r'
  end.

(** First position tried: (Uint32)fileSize - 4 - 1. *)
Definition scan_start (buf : zbytes) : nat := N.to_nat (u32 (u32 (nlen buf) + (two32 - 5))).

(** GetCentralDirPosition, ZIPFileImpl.cpp:1136-1162. *)
Definition central_dir_pos (buf : zbytes) : zres N :=
  if nlen buf <? min_zip then ZOk 0 else
  do! m <- scan_end buf (scan_start buf);
  match m with
  | None => ZOk 0
  | Some p => do! (v, _) <- read_long buf (u32 (p + 16)); ZOk v
  end.

(** GetEndOfCentralDirPosition, ZIPFileImpl.cpp:1164-1186. *)
Definition end_pos (buf : zbytes) : zres N :=
  if nlen buf <? min_zip then ZOk 0 else
  do! m <- scan_end buf (scan_start buf);
  match m with None => ZOk 0 | Some p => ZOk p end.

(** The loop of GetFileCentralHeaderPosition, ZIPFileImpl.cpp:1253-1290.  Note that a
    signature error only stops the loop after the rest of the iteration, including the
    name comparison, has been executed. *)
Fixpoint find_central (fuel : nat) (buf : zbytes) (path : list N) (pos : N) : zres N :=
  match fuel with
  | O => ZFuel
  | S fuel' =>
      let start := pos in
      do! (sg, p1) <- read_long buf pos;
      let err := negb (sg =? sig_central) in
      let p2 := u32 (p1 + 24) in
      do! (fnl, p3) <- read_short buf p2;
      do! (efl, p4) <- read_short buf p3;
      do! (fcl, p5) <- read_short buf p4;
      let p6 := u32 (p5 + 8) in
      do! (lho, p7) <- read_long buf p6;
      do! (name, p8) <- read_name buf p7 fnl;
      if (nlen path =? fnl) && beq_bytes name path then ZOk start
      else if err then ZOk 0
      else find_central fuel' buf path (u32 (p8 + efl + fcl))
  end.

(** GetFileCentralHeaderPosition, ZIPFileImpl.cpp:1240-1291. *)
Definition central_header_pos (buf : zbytes) (path : list N) : zres N :=
  do! cd <- central_dir_pos buf;
  if (cd =? 0) || (nlen path =? 0) then ZOk 0
  else find_central (S (length buf)) buf path cd.

(** GetNextFile, ZIPFileImpl.cpp:252-302.  [None] = an error code is returned. *)
Definition next_file (buf : zbytes) (path : list N) : zres (option (list N)) :=
  do! cd <- central_dir_pos buf;
  if cd =? 0 then ZOk None else
  do! pos <-
    (if nlen path =? 0 then ZOk cd else
     do! p <- central_header_pos buf path;
     do! (fnl, p1) <- read_short buf (u32 (p + 28));
     do! (efl, p2) <- read_short buf p1;
     do! (fcl, p3) <- read_short buf p2;
     ZOk (u32 (p3 + 12 + fnl + efl + fcl)));
  do! (sg, p1) <- read_long buf pos;
  if negb (sg =? sig_central) then ZOk None else
  do! (fnl, p2) <- read_short buf (u32 (p1 + 24));
  do! (name, _) <- read_name buf (u32 (p2 + 16)) fnl;
  match name with
  | [] => ZStale                                  (* strcmp on the bytes of an earlier call *)
  | c :: _ => if c =? 0 then ZOk None else ZOk (Some name)
  end.

(** SZIPFileInfo as filled by GetFileInfo (the fields the library uses). *)
Record finfo := { f_version : N; f_flags : N; f_method : N; f_time : N; f_date : N; f_crc : N;
                  f_csize : N; f_usize : N; f_iattr : N; f_eattr : N; f_offset : N;
                  f_name : list N; f_comment : list N }.

(** GetFileInfo, ZIPFileImpl.cpp:336-408.  [None] = kVCOMError_False, the output untouched. *)
Definition file_info (o : oracle) (buf : zbytes) (path : list N) : zres (option finfo) :=
  do! p0 <- central_header_pos buf path;
  do! (sg, p1) <- read_long buf p0;
  if negb (sg =? sig_central) then ZOk None else
  do! (v1, p2) <- read_short buf p1;
  do! (v2, p3) <- read_short buf p2;
  do! (fl, p4) <- read_short buf p3;
  do! (me, p5) <- read_short buf p4;
  do! (ti, p6) <- read_short buf p5;
  do! (da, p7) <- read_short buf p6;
  do! (cr, p8) <- read_long buf p7;
  do! (cs, p9) <- read_long buf p8;
  do! (us, p10) <- read_long buf p9;
  do! (fnl, p11) <- read_short buf p10;
  do! (efl, p12) <- read_short buf p11;
  do! (fcl, p13) <- read_short buf p12;
  do! (dk, p14) <- read_short buf p13;
  do! (ia, p15) <- read_short buf p14;
  do! (ea, p16) <- read_long buf p15;
  do! (lo, p17) <- read_long buf p16;
  do! (name, p18) <- read_block buf p17 fnl;
  do! (comment, _) <- read_block buf (u32 (p18 + efl)) fcl;
  if o_utf8 o name && o_utf8 o comment then
    ZOk (Some {| f_version := v2; f_flags := fl; f_method := me; f_time := ti; f_date := da; f_crc := cr;
                 f_csize := cs; f_usize := us; f_iattr := ia; f_eattr := ea; f_offset := lo;
                 f_name := name; f_comment := comment |})
  else ZThrow.

(** GetFile into a buffer, ZIPFileImpl.cpp:410-456.  The result of GetFileInfo is ignored
    there, so a missing entry means using an uninitialised record.  [None] = error code. *)
Definition get_file (o : oracle) (buf : zbytes) (path : list N) : zres (option (list N)) :=
  do! i <- file_info o buf path;
  match i with
  | None => ZUB
  | Some fi =>
      do! (fnl, p1) <- read_short buf (u32 (f_offset fi + 26));
      do! (efl, p2) <- read_short buf p1;
      do! (data, _) <- read_block buf (u32 (p2 + fnl + efl)) (f_csize fi);
      if f_method fi =? 12 then ZOk None
      else if f_method fi =? 0 then ZOk (Some data)
      else ZOk (o_inflate o data)
  end.

(** WriteLong / WriteShort, ZIPFileImpl.cpp:935-969 (the parameter types truncate). *)
Definition wl (v : N) : list N := le_bytes 4 v.
Definition ws (v : N) : list N := le_bytes 2 v.

(** What AddFile puts into the headers for one entry (ZIPFileImpl.cpp:544-558, 621-647). *)
Record zentry := { e_name : list N; e_method : N; e_time : N; e_date : N; e_crc : N;
                   e_usize : N; e_data : list N }.

(** WriteLocalFileHeader, ZIPFileImpl.cpp:1053-1067 followed by the data (568-569, 652-653).
    dwVersion = 20, dwFlags = 0. *)
Definition local_header (e : zentry) : list N :=
  wl sig_local ++ ws 20 ++ ws 0 ++ ws (e_method e) ++ ws (e_time e) ++ ws (e_date e) ++ wl (e_crc e) ++
  wl (nlen (e_data e)) ++ wl (e_usize e) ++ ws (nlen (e_name e)) ++ ws 0 ++ e_name e.

(** WriteCentralDirectoryHeader (single), ZIPFileImpl.cpp:1098-1121; the entry comment is
    empty and the archive comment of [clen] bytes is written after each entry (line 1119). *)
Definition central_header (start_disk : N) (comment : list N) (e : zentry) (off : N) : list N :=
  wl sig_central ++ ws 20 ++ ws 20 ++ ws 0 ++ ws (e_method e) ++ ws (e_time e) ++ ws (e_date e) ++ wl (e_crc e) ++
  wl (nlen (e_data e)) ++ wl (e_usize e) ++ ws (nlen (e_name e)) ++ ws 0 ++ ws 0 ++ ws start_disk ++ ws 0 ++ wl 0 ++
  wl off ++ e_name e ++ comment.

(** SZIPArchiveInfo, ZIPFileImpl.h:25-37. *)
Record ainfo := { a_disk : N; a_cddisk : N; a_entries : N; a_total : N; a_cdsize : N; a_cdoff : N;
                  a_start : N; a_comment : list N }.

(** WriteEndHeader, ZIPFileImpl.cpp:1123-1134. *)
Definition end_header (a : ainfo) : list N :=
  wl sig_end ++ ws (a_disk a) ++ ws (a_cddisk a) ++ ws (a_entries a) ++ ws (a_total a) ++
  wl (a_cdsize a) ++ wl (a_cdoff a) ++ ws (nlen (a_comment a)) ++ a_comment a.

(** GetZipArchiveInfo, ZIPFileImpl.cpp:1293-1327.  When no end record is found the C++
    structure stays uninitialised; AddFile only calls it after one has been found. *)
Definition archive_info (o : oracle) (buf : zbytes) : zres ainfo :=
  do! ep <- end_pos buf;
  if ep =? 0 then ZUB else
  do! (sg, p1) <- read_long buf ep;
  if negb (sg =? sig_end) then ZUB else
  do! (d0, p2) <- read_short buf p1;
  do! (d1, p3) <- read_short buf p2;
  do! (n0, p4) <- read_short buf p3;
  do! (n1, p5) <- read_short buf p4;
  do! (sz, p6) <- read_long buf p5;
  do! (off, p7) <- read_long buf p6;
  do! (cl, p8) <- read_short buf p7;
  do! (c, _) <- read_block buf p8 cl;
  if o_utf8 o c then
    ZOk {| a_disk := d0; a_cddisk := d1; a_entries := n0; a_total := n1; a_cdsize := sz; a_cdoff := off;
           a_start := d1; a_comment := c |}
  else ZThrow.

(** AddFile result codes, ZIPFileImpl.cpp:473-667. *)
Inductive addcode := AddOk | AddExists | AddFailed | AddNotOpen.

(** path.Replace("\\", "/"), ZIPFileImpl.cpp:476, on the UTF-8 bytes of the name. *)
Definition norm_path (p : list N) : list N := map (fun c => if c =? 92 then 47 else c) p.

(** The stored form of the data: deflated or verbatim (lines 523-539 and 600-616). *)
Definition pack (o : oracle) (compress : bool) (data : list N) : N * list N :=
  if compress then (8, o_deflate o data) else (0, data).

(** AddFile(path, buffer), ZIPFileImpl.cpp:473-667; [clock] = (dosDate, dosTime) from
    GetDosDateAndTime.  Returns the code and the new buffer.  The first-entry branch
    reopens the archive for writing, i.e. starts from an empty buffer (649-655). *)
Definition add_file (o : oracle) (compress : bool) (clock : N * N)
                    (buf : zbytes) (path0 data : list N) : zres (addcode * zbytes) :=
  let path := norm_path path0 in
  do! ex <- central_header_pos buf path;
  if negb (ex =? 0) then ZOk (AddExists, buf) else
  do! cd <- central_dir_pos buf;
  do! ep <- end_pos buf;
  let '(method, packed) := pack o compress data in
  let e := {| e_name := path; e_method := method; e_time := u16 (snd clock); e_date := u16 (fst clock);
              e_crc := o_crc o data; e_usize := u32 (nlen data); e_data := packed |} in
  let code := if nlen packed =? 0 then AddFailed else AddOk in
  if negb (nlen buf =? 0) && negb (cd =? 0) && negb (ep =? 0) then
    do! (d1, _) <- read_block buf 0 cd;
    do! (d2, _) <- read_block buf cd (u32 (ep + (two32 - cd)));
    do! ai <- archive_info o buf;
    let ai' := {| a_disk := a_disk ai; a_cddisk := a_cddisk ai;
                  a_entries := u16 (a_entries ai + 1); a_total := u16 (a_total ai + 1);
                  a_cdsize := u32 (a_cdsize ai + 46 + nlen path);
                  a_cdoff := u32 (cd + nlen packed + nlen path + 30);
                  a_start := a_start ai; a_comment := a_comment ai |} in
    ZOk (code, d1 ++ local_header e ++ packed ++ d2 ++ central_header (a_start ai) (a_comment ai) e cd ++ end_header ai')
  else
    let ai' := {| a_disk := 0; a_cddisk := 0; a_entries := 1; a_total := 1;
                  a_cdsize := u32 (46 + nlen path); a_cdoff := u32 (30 + nlen path + nlen packed);
                  a_start := 0; a_comment := [] |} in
    ZOk (code, local_header e ++ packed ++ central_header 0 [] e 0 ++ end_header ai').

(** GetFileLocalHeaderPosition, ZIPFileImpl.cpp:1188-1238. *)
Fixpoint find_local (fuel : nat) (buf : zbytes) (path : list N) (pos : N) : zres N :=
  match fuel with
  | O => ZFuel
  | S fuel' =>
      do! (sg, p1) <- read_long buf pos;
      let err := negb (sg =? sig_central) in
      do! (fnl, p3) <- read_short buf (u32 (p1 + 24));
      do! (efl, p4) <- read_short buf p3;
      do! (fcl, p5) <- read_short buf p4;
      do! (lho, p7) <- read_long buf (u32 (p5 + 8));
      do! (name, p8) <- read_name buf p7 fnl;
      if (nlen path =? fnl) && beq_bytes name path then ZOk lho
      else if err then ZOk 0
      else find_local fuel' buf path (u32 (p8 + efl + fcl))
  end.
Definition local_header_pos (buf : zbytes) (path : list N) : zres N :=
  do! cd <- central_dir_pos buf;
  if (cd =? 0) || (nlen path =? 0) then ZOk 0
  else find_local (S (length buf)) buf path cd.

(** The loop of RemoveFile that collects the remaining entries, ZIPFileImpl.cpp:719-741.
    [n] = dwTotalNumberOfEntries.  GetNextFile leaves [nextFile] empty on failure;
    GetFileInfo leaves the record uninitialised on failure. *)
Fixpoint collect (o : oracle) (buf : zbytes) (path : list N) (removed : N) (n : nat)
                 (cur : list N) (found : bool) (acc : list finfo) : zres (list finfo) :=
  match n with
  | O => ZOk acc
  | S n' =>
      do! nx <- next_file buf cur;
      let next := match nx with Some x => x | None => [] end in
      do! i <- file_info o buf cur;
      match i with
      | None => ZUB
      | Some fi =>
          let fi' := if found then
              {| f_version := f_version fi; f_flags := f_flags fi; f_method := f_method fi; f_time := f_time fi;
                 f_date := f_date fi; f_crc := f_crc fi; f_csize := f_csize fi; f_usize := f_usize fi;
                 f_iattr := f_iattr fi; f_eattr := f_eattr fi; f_offset := u32 (f_offset fi + (two32 - removed));
                 f_name := f_name fi; f_comment := f_comment fi |} else fi in
          let isit := beq_bytes cur path in
          let acc' := if isit then acc else acc ++ [fi'] in
          let found' := if isit then true else found in
          match next with
          | [] => ZOk acc'
          | _ => collect o buf path removed n' next found' acc'
          end
      end
  end.

(** WriteCentralDirectoryHeader (array), ZIPFileImpl.cpp:1069-1096. *)
Definition central_of_info (start_disk : N) (comment : list N) (f : finfo) : list N :=
  wl sig_central ++ ws (f_version f) ++ ws (f_version f) ++ ws (f_flags f) ++ ws (f_method f) ++
  ws (f_time f) ++ ws (f_date f) ++ wl (f_crc f) ++ wl (f_csize f) ++ wl (f_usize f) ++
  ws (nlen (f_name f)) ++ ws 0 ++ ws (nlen (f_comment f)) ++ ws start_disk ++ ws (f_iattr f) ++ wl (f_eattr f) ++
  wl (f_offset f) ++ f_name f ++ comment.

(** RemoveFile, ZIPFileImpl.cpp:677-782.  [writable] = fbOpenedWrite.  The buffer is not
    cleaned before the new content is written (ZIPFileBuffer::Open for writing keeps it,
    ZIPFileBuffer.cpp:30-52) and ZIPFileBuffer::Write always appends (95-129); when the
    archive is open for reading nothing is written at all and the final Open for reading
    reloads the file that the preceding Close wrote, i.e. the same bytes.  RemoveFile
    returns NoError in every case. *)
Definition remove_file (o : oracle) (writable : bool) (buf : zbytes) (path : list N) : zres zbytes :=
  do! ch <- central_header_pos buf path;
  if ch =? 0 then ZOk buf else
  do! lh <- local_header_pos buf path;
  do! (csize, q1) <- read_long buf (u32 (lh + 18));
  do! (fnl, q2) <- read_short buf (u32 (q1 + 4));
  do! (efl, _) <- read_short buf q2;
  let rl := u32 (30 + fnl + efl + csize) in
  do! (fnl2, q4) <- read_short buf (u32 (ch + 28));
  do! (efl2, q5) <- read_short buf q4;
  do! (fcl2, _) <- read_short buf q5;
  let rc := u32 (46 + fnl2 + efl2 + fcl2) in
  do! ai <- archive_info o buf;
  do! first <- next_file buf [];
  do! infos <- collect o buf path rl (N.to_nat (a_total ai)) (match first with Some x => x | None => [] end) false [];
  let ai' := {| a_disk := a_disk ai; a_cddisk := a_cddisk ai; a_entries := u16 (a_entries ai + 65535);
                a_total := u16 (a_total ai + 65535); a_cdsize := u32 (a_cdsize ai + (two32 - rc));
                a_cdoff := u32 (a_cdoff ai + (two32 - rl)); a_start := a_start ai; a_comment := a_comment ai |} in
  do! d1 <- rd buf 0 lh;
  do! d2 <- rd buf (u32 (lh + rl)) (u32 (ch + (two32 - lh) + (two32 - rl)));
  if writable then
    ZOk (buf ++ d1 ++ d2 ++ concat (map (central_of_info (a_start ai) (a_comment ai)) infos) ++ end_header ai')
  else ZOk buf.

(** A sequence of AddFile calls (clock, name, content), as CSceneDataExchange::WriteToFile
    (SceneDataExchange.cpp) and GdtfFixture export (GDTFManager.cpp) issue them; the result
    codes are collected. *)
Definition addop := ((N * N) * list N * list N)%type.
Fixpoint run_adds (o : oracle) (compress : bool) (ops : list addop) (buf : zbytes) : zres (list addcode * zbytes) :=
  match ops with
  | [] => ZOk ([], buf)
  | (clock, path, data) :: ops' =>
      do! (c, buf') <- add_file o compress clock buf path data;
      do! (cs, buf'') <- run_adds o compress ops' buf';
      ZOk (c :: cs, buf'')
  end.

(** The loop with which the importers walk an archive: GDTFManager.cpp:7876-7985
    (ImportFromZip) and SceneDataExchange.cpp:3725-3790 (ReadFromFile):
    while GetNextFile(inPath, outPath) succeeds, handle outPath, then inPath = outPath.
    The result is the list of names handled. *)
Fixpoint walk (fuel : nat) (buf : zbytes) (cur : list N) : zres (list (list N)) :=
  match fuel with
  | O => ZFuel
  | S f =>
      do! x <- next_file buf cur;
      match x with
      | None => ZOk []
      | Some n => do! r <- walk f buf n; ZOk (n :: r)
      end
  end.

(** One archive object and the file behind it: CZIPFileImpl::OpenRead/OpenWrite/OpenNewWrite/
    Close, ZIPFileImpl.cpp:135-228, with ZIPFileBuffer::Open/Close, ZIPFileBuffer.cpp:27-84.
    [z_buf = None]: no file opened yet.  [z_forread] = ZIPFileBuffer::fOpenForRead,
    [z_write] = fbOpenedWrite.  The file is replaced as a whole by ZIPFileBuffer::Close
    (fopen "wb"); the null test on the buffer is the test for an empty byte list, because a
    buffer that was written to holds at least one header.  Failing file operations are not
    modelled. *)
Record zsess := { z_disk : zbytes; z_buf : option zbytes; z_forread : bool; z_write : bool; z_compress : bool }.

(** ZIPFileBuffer::Close on the current buffer. *)
Definition z_flush (s : zsess) : zbytes :=
  match z_buf s with
  | Some ((_ :: _) as b) => if z_forread s then z_disk s else b
  | _ => z_disk s
  end.

Definition z_open_read (s : zsess) : zsess :=
  {| z_disk := z_flush s; z_buf := Some (z_flush s); z_forread := true; z_write := false; z_compress := z_compress s |}.
Definition z_open_new_write (compress : bool) (s : zsess) : zsess :=
  {| z_disk := z_flush s; z_buf := Some []; z_forread := false; z_write := true; z_compress := compress |}.
Definition z_open_write (s : zsess) : zsess := z_open_new_write true s.
Definition z_close (s : zsess) : zsess :=
  {| z_disk := z_flush s; z_buf := z_buf s; z_forread := z_forread s; z_write := false; z_compress := z_compress s |}.
(** AddFile on the object: 478-479 for the guard; the first-entry branch flushes the old
    buffer before starting a new one, which only matters for the file content in between. *)
Definition z_add (o : oracle) (clock : N * N) (path data : list N) (s : zsess) : zres (addcode * zsess) :=
  match z_buf s with
  | None => ZOk (AddNotOpen, s)
  | Some b =>
      if z_write s then
        do! (c, b') <- add_file o (z_compress s) clock b path data;
        ZOk (c, {| z_disk := z_disk s; z_buf := Some b'; z_forread := z_forread s; z_write := z_write s; z_compress := z_compress s |})
      else ZOk (AddNotOpen, s)
  end.
Fixpoint z_adds (o : oracle) (ops : list addop) (s : zsess) : zres (list addcode * zsess) :=
  match ops with
  | [] => ZOk ([], s)
  | (clock, path, data) :: ops' =>
      do! (c, s') <- z_add o clock path data s;
      do! (cs, s'') <- z_adds o ops' s';
      ZOk (c :: cs, s'')
  end.
