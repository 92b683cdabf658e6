(** Model of the SHA-256 implementation in /repo/src/sha256/sha256.cpp.

    Machine words are [N]; 32-bit arithmetic is reduced explicitly.  Arrays are lists; a
    write outside an array gives [None].  Not modelled: the alignment of the pointer that
    processBlock casts to uint32_t* (line 93), big-endian hosts (line 98). *)
From Coq Require Import List NArith Bool.
From Verif Require Import Bytes.
Import ListNotations.
Open Scope N_scope.

(** uint32_t addition. *)
Definition add32 (a b : N) : N := (a + b) mod 4294967296.

(** rotate, sha256.cpp:42-45; the left shift is done in uint32_t. *)
Definition rotate (a c : N) : N := N.lor (N.shiftr a c) (N.shiftl a (32 - c) mod 4294967296).

(** uint32_t complement, used in sha256.cpp:66. *)
Definition not32 (a : N) : N := N.lxor a 4294967295.

(** swap, sha256.cpp:47-60 (__builtin_bswap32; the fallback in 56-59 computes the same). *)
Definition swap (x : N) : N :=
  N.lor (N.lor (N.lor (N.shiftr x 24) (N.land (N.shiftr x 8) 65280)) (N.land (N.shiftl x 8) 16711680))
        (N.shiftl x 24 mod 4294967296).

(** f1, sha256.cpp:63-68. *)
Definition f1 (e f g : N) : N :=
  let term1 := N.lxor (N.lxor (rotate e 6) (rotate e 11)) (rotate e 25) in
  let term2 := N.lxor (N.land e f) (N.land (not32 e) g) in
  add32 term1 term2.

(** f2, sha256.cpp:70-75. *)
Definition f2 (a b c : N) : N :=
  let term1 := N.lxor (N.lxor (rotate a 2) (rotate a 13)) (rotate a 22) in
  let term2 := N.lor (N.land (N.lor a b) c) (N.land a b) in
  add32 term1 term2.

(** The eight local variables a..h of processBlock. *)
Definition vars := (N * N * N * N * N * N * N * N)%type.

(** Eight consecutive lines of processBlock, sha256.cpp:107-114; the blocks 117-124, 134-141,
    151-158, 168-175, 185-192, 202-209 and 219-226 are the same text with other constants and
    word indices. *)
Definition eight (k : nat -> N) (w : nat -> N) (s : vars) : vars :=
  let '(a, b, c, d, e, f, g, h) := s in
  let x := add32 (add32 (add32 h (f1 e f g)) (k 0%nat)) (w 0%nat) in let y := f2 a b c in let d := add32 d x in let h := add32 x y in
  let x := add32 (add32 (add32 g (f1 d e f)) (k 1%nat)) (w 1%nat) in let y := f2 h a b in let c := add32 c x in let g := add32 x y in
  let x := add32 (add32 (add32 f (f1 c d e)) (k 2%nat)) (w 2%nat) in let y := f2 g h a in let b := add32 b x in let f := add32 x y in
  let x := add32 (add32 (add32 e (f1 b c d)) (k 3%nat)) (w 3%nat) in let y := f2 f g h in let a := add32 a x in let e := add32 x y in
  let x := add32 (add32 (add32 d (f1 a b c)) (k 4%nat)) (w 4%nat) in let y := f2 e f g in let h := add32 h x in let d := add32 x y in
  let x := add32 (add32 (add32 c (f1 h a b)) (k 5%nat)) (w 5%nat) in let y := f2 d e f in let g := add32 g x in let c := add32 x y in
  let x := add32 (add32 (add32 b (f1 g h a)) (k 6%nat)) (w 6%nat) in let y := f2 c d e in let f := add32 f x in let b := add32 x y in
  let x := add32 (add32 (add32 a (f1 f g h)) (k 7%nat)) (w 7%nat) in let y := f2 b c d in let e := add32 e x in let a := add32 x y in
  (a, b, c, d, e, f, g, h).

(** The 64 constants in the order in which they appear in sha256.cpp:107-226. *)
Definition consts : list N :=
  [1116352408; 1899447441; 3049323471; 3921009573; 961987163; 1508970993; 2453635748; 2870763221;
   3624381080; 310598401; 607225278; 1426881987; 1925078388; 2162078206; 2614888103; 3248222580;
   3835390401; 4022224774; 264347078; 604807628; 770255983; 1249150122; 1555081692; 1996064986;
   2554220882; 2821834349; 2952996808; 3210313671; 3336571891; 3584528711; 113926993; 338241895;
   666307205; 773529912; 1294757372; 1396182291; 1695183700; 1986661051; 2177026350; 2456956037;
   2730485921; 2820302411; 3259730800; 3345764771; 3516065817; 3600352804; 4094571909; 275423344;
   430227734; 506948616; 659060556; 883997877; 958139571; 1322822218; 1537002063; 1747873779;
   1955562222; 2024104815; 2227730452; 2361852424; 2428436474; 2756734187; 3204031479; 3329325298].

(** words[i] for the next i = number of words so far: loop body, sha256.cpp:128-131 (also
    145-148, 162-165, 179-182, 196-199, 213-216). *)
Definition next_word (ws : list N) : N :=
  let i := length ws in
  let at_ k := nth (i - k) ws 0 in
  add32 (add32 (add32 (at_ 16%nat)
    (N.lxor (N.lxor (rotate (at_ 15%nat) 7) (rotate (at_ 15%nat) 18)) (N.shiftr (at_ 15%nat) 3)))
    (at_ 7%nat))
    (N.lxor (N.lxor (rotate (at_ 2%nat) 17) (rotate (at_ 2%nat) 19)) (N.shiftr (at_ 2%nat) 10)).

(** The extension loops, e.g. sha256.cpp:127-131, with [n] iterations; the array words[64] is
    represented by its initialised prefix. *)
Fixpoint extend (n : nat) (ws : list N) : list N :=
  match n with O => ws | S n' => extend n' (ws ++ [next_word ws]) end.

(** sha256.cpp:93-102: the 64 bytes read as sixteen little-endian words and swapped. *)
Fixpoint load_words (n : nat) (data : list N) : list N :=
  match n with
  | O => []
  | S n' => swap (le_val (firstn 4 data)) :: load_words n' (skipn 4 data)
  end.

(** One block of eight lines with the constants and words starting at index [i]. *)
Definition eight_at (i : nat) (ws : list N) (s : vars) : vars :=
  eight (fun j => nth (i + j) consts 0) (fun j => nth (i + j) ws 0) s.

(** processBlock, sha256.cpp:80-237.  [h] is m_hash. *)
Definition process_block (h : list N) (data : list N) : list N :=
  let m i := nth i h 0 in
  let s := (m 0%nat, m 1%nat, m 2%nat, m 3%nat, m 4%nat, m 5%nat, m 6%nat, m 7%nat) in
  let words := load_words 16 data in
  let s := eight_at 0 words s in
  let s := eight_at 8 words s in
  let words := extend 8 words in
  let s := eight_at 16 words s in
  let words := extend 8 words in
  let s := eight_at 24 words s in
  let words := extend 8 words in
  let s := eight_at 32 words s in
  let words := extend 8 words in
  let s := eight_at 40 words s in
  let words := extend 8 words in
  let s := eight_at 48 words s in
  let words := extend 8 words in
  let s := eight_at 56 words s in
  let '(a, b, c, d, e, f, g, hh) := s in
  [add32 (m 0%nat) a; add32 (m 1%nat) b; add32 (m 2%nat) c; add32 (m 3%nat) d;
   add32 (m 4%nat) e; add32 (m 5%nat) f; add32 (m 6%nat) g; add32 (m 7%nat) hh].

(** The object, sha256.h:68-77. *)
Record sha := { s_num : N; s_size : N; s_buf : list N; s_hash : list N }.

(** reset, sha256.cpp:23-37 (also the constructor, 16-19).  The buffer keeps its old bytes:
    whatever memory held for a fresh object. *)
Definition init_hash : list N := [1779033703; 3144134277; 1013904242; 2773480762; 1359893119; 2600822924; 528734635; 1541459225].
Definition reset (buf : list N) : sha := {| s_num := 0; s_size := 0; s_buf := buf; s_hash := init_hash |}.

(** m_buffer[i] = v (and extra[i] = v): [None] outside the 64 bytes. *)
Fixpoint put (l : list N) (i : nat) (v : N) : option (list N) :=
  match l, i with
  | [], _ => None
  | _ :: l', O => Some (v :: l')
  | x :: l', S i' => match put l' i' v with Some r => Some (x :: r) | None => None end
  end.

Definition bind {A B} (x : option A) (f : A -> option B) : option B :=
  match x with Some a => f a | None => None end.
Notation "'do?' x <- e ; k" := (bind e (fun x => k)) (at level 200, x pattern, e at level 100, k at level 200).

(** The loop sha256.cpp:247-251: copies while there is data and room; gives the buffer, the
    new size and the rest of the data. *)
Fixpoint fill (data : list N) (buf : list N) (size : N) : option (list N * N * list N) :=
  match data with
  | [] => Some (buf, size, [])
  | b :: data' =>
      if size <? 64 then do? buf' <- put buf (N.to_nat size) b; fill data' buf' (size + 1)
      else Some (buf, size, data)
  end.

(** The loop sha256.cpp:276-280: copies all the data. *)
Fixpoint keep (data : list N) (buf : list N) (size : N) : option (list N * N) :=
  match data with
  | [] => Some (buf, size)
  | b :: data' => do? buf' <- put buf (N.to_nat size) b; keep data' buf' (size + 1)
  end.

(** The loop sha256.cpp:267-273; the fuel is the number of data bytes plus one, which every
    iteration reduces. *)
Fixpoint full_blocks (fuel : nat) (data : list N) (num : N) (h : list N) : option (list N * N * list N) :=
  match fuel with
  | O => None
  | S fuel' =>
      if 64 <=? nlen data then
        full_blocks fuel' (skipn 64 data) ((num + 64) mod two64) (process_block h (firstn 64 data))
      else Some (data, num, h)
  end.

(** add, sha256.cpp:241-281. *)
Definition add (data : list N) (s : sha) : option sha :=
  do? (buf, size, data) <- (if 0 <? s_size s then fill data (s_buf s) (s_size s) else Some (s_buf s, s_size s, data));
  let '(h, num, size) :=
    if size =? 64 then (process_block (s_hash s) buf, (s_num s + 64) mod two64, 0)
    else (s_hash s, s_num s, size) in
  if nlen data =? 0 then Some {| s_num := num; s_size := size; s_buf := buf; s_hash := h |} else
  do? (data, num, h) <- full_blocks (S (length data)) data num h;
  do? (buf, size) <- keep data buf size;
  Some {| s_num := num; s_size := size; s_buf := buf; s_hash := h |}.

(** Writing [n] zeros from index [i] on: the loops sha256.cpp:318-321. *)
Fixpoint zeros (n : nat) (buf : list N) (i : nat) : option (list N) :=
  match n with
  | O => Some buf
  | S n' => do? buf' <- put buf i 0; zeros n' buf' (S i)
  end.

(** Writing a list of bytes from index [i] on: sha256.cpp:333-340. *)
Fixpoint puts (l : list N) (buf : list N) (i : nat) : option (list N) :=
  match l with
  | [] => Some buf
  | b :: l' => do? buf' <- put buf i b; puts l' buf' (S i)
  end.

(** The eight length bytes, sha256.cpp:333-340. *)
Definition length_bytes (v : N) : list N :=
  map (fun k => N.land (N.shiftr v k) 255) [56; 48; 40; 32; 24; 16; 8; 0].

(** processBuffer, sha256.cpp:285-347.  [extra] is the uninitialised local array of 64 bytes.
    The result is the new buffer and m_hash. *)
Definition process_buffer (extra : list N) (s : sha) : option (list N * list N) :=
  let bits := s_size s * 8 + 1 in
  let lower := N.land bits 511 in
  let padded := (if lower <=? 448 then bits + (448 - lower) else bits + (512 + 448 - lower)) / 8 in
  do? (buf, extra) <- (if s_size s <? 64 then do? b <- put (s_buf s) (N.to_nat (s_size s)) 128; Some (b, extra)
                       else do? x <- put extra 0 128; Some (s_buf s, x));
  let i := s_size s + 1 in
  do? buf <- zeros (N.to_nat (64 - i)) buf (N.to_nat i);
  let i := N.max i 64 in
  do? extra <- zeros (N.to_nat (padded - i)) extra (N.to_nat (i - 64));
  let msg_bits := (8 * ((s_num s + s_size s) mod two64)) mod two64 in
  do? (buf, extra) <- (if padded <? 64 then do? b <- puts (length_bytes msg_bits) buf (N.to_nat padded); Some (b, extra)
                       else do? x <- puts (length_bytes msg_bits) extra (N.to_nat (padded - 64)); Some (buf, x));
  let h := process_block (s_hash s) buf in
  Some (buf, if 64 <? padded then process_block h extra else h).

(** getHash into raw bytes, sha256.cpp:372-393: m_hash is saved and restored, m_buffer is
    not.  The result is the digest and the new object. *)
Definition get_raw (extra : list N) (s : sha) : option (list N * sha) :=
  do? (buf, h) <- process_buffer extra s;
  let raw := concat (map (fun i => let v := nth i h 0 in
    [N.land (N.shiftr v 24) 255; N.land (N.shiftr v 16) 255; N.land (N.shiftr v 8) 255; N.land v 255]) (seq 0 8)) in
  Some (raw, {| s_num := s_num s; s_size := s_size s; s_buf := buf; s_hash := s_hash s |}).

(** getHash as text, sha256.cpp:351-368. *)
Definition dec2hex (v : N) : N := nth (N.to_nat v) [48;49;50;51;52;53;54;55;56;57;97;98;99;100;101;102] 0.
Definition hex_text (raw : list N) : list N :=
  concat (map (fun b => [dec2hex (N.land (N.shiftr b 4) 15); dec2hex (N.land b 15)]) raw).
Definition get_hash (extra : list N) (s : sha) : option (list N * sha) :=
  do? (raw, s') <- get_raw extra s;
  Some (hex_text raw, s').

(** operator(), sha256.cpp:397-411. *)
Definition sha_of (extra : list N) (data : list N) (s : sha) : option (list N * sha) :=
  do? s' <- add data (reset (s_buf s));
  get_hash extra s'.

(** A client of one object: adds, digest requests (with whatever the uninitialised array
    holds each time), resets; the digests are collected. *)
Inductive shaop := OpAdd (d : list N) | OpGet (extra : list N) | OpReset.
Fixpoint sha_run (ops : list shaop) (s : sha) : option (list (list N)) :=
  match ops with
  | [] => Some []
  | OpAdd d :: ops' => do? s' <- add d s; sha_run ops' s'
  | OpGet x :: ops' => do? (t, s') <- get_hash x s; do? r <- sha_run ops' s'; Some (t :: r)
  | OpReset :: ops' => sha_run ops' (reset (s_buf s))
  end.
