(** SHA-256 as defined in FIPS 180-4 (sections 2.2.2, 4.1.2, 4.2.2, 5.1.1, 5.2.1, 5.3.3,
    6.2.2), for messages that consist of whole bytes.  Written from the standard; the
    constants are computed from their definition, not copied. *)
From Coq Require Import List NArith Bool.
From Verif Require Import Bytes.
Import ListNotations.
Open Scope N_scope.

(** 4.2.2, 5.3.3: first 32 bits of the fractional parts of cube and square roots of the
    first primes. *)
Definition is_prime (n : nat) : bool := forallb (fun d => negb (Nat.eqb (Nat.modulo n d) 0)) (seq 2 (n - 2)).
Definition primes : list N := map N.of_nat (filter is_prime (seq 2 310)).
(** Greatest r below 2^bits added to r0 with r^3 <= n, digit by digit. *)
Fixpoint cube_root (bits : nat) (r n : N) : N :=
  match bits with
  | O => r
  | S b => let r' := r + 2 ^ N.of_nat b in cube_root b (if r' ^ 3 <=? n then r' else r) n
  end.
Definition cube_frac (p : N) : N := cube_root 40 0 (p * 2 ^ 96) mod 2 ^ 32.
Definition square_frac (p : N) : N := N.sqrt (p * 2 ^ 64) mod 2 ^ 32.
Definition K : list N := map cube_frac primes.
Definition H0 : list N := map square_frac (firstn 8 primes).

(** The list of primes has 64 entries and the digit-by-digit roots are the cube roots. *)
Example primes_count : length primes = 64%nat /\ nth 63 primes 0 = 311.
Proof. vm_compute. auto. Qed.
Example cube_roots_ok : forallb (fun p => let r := cube_root 40 0 (p * 2 ^ 96) in
  (r ^ 3 <=? p * 2 ^ 96) && (p * 2 ^ 96 <? (r + 1) ^ 3)) primes = true.
Proof. vm_compute. reflexivity. Qed.

(** 2.2.2, 3.2: operations on 32-bit words. *)
Definition plus (x y : N) : N := (x + y) mod 2 ^ 32.
Definition SHR (n x : N) : N := x / 2 ^ n.
Definition ROTR (n x : N) : N := N.lor (x / 2 ^ n) ((x * 2 ^ (32 - n)) mod 2 ^ 32).
Definition xor3 (x y z : N) : N := N.lxor x (N.lxor y z).
Definition complement (x : N) : N := 2 ^ 32 - 1 - x.

(** 4.1.2 *)
Definition Ch (x y z : N) : N := N.lxor (N.land x y) (N.land (complement x) z).
Definition Maj (x y z : N) : N := xor3 (N.land x y) (N.land x z) (N.land y z).
Definition Sigma0 (x : N) : N := xor3 (ROTR 2 x) (ROTR 13 x) (ROTR 22 x).
Definition Sigma1 (x : N) : N := xor3 (ROTR 6 x) (ROTR 11 x) (ROTR 25 x).
Definition sigma0 (x : N) : N := xor3 (ROTR 7 x) (ROTR 18 x) (SHR 3 x).
Definition sigma1 (x : N) : N := xor3 (ROTR 17 x) (ROTR 19 x) (SHR 10 x).

(** 5.1.1 on bytes: the bit 1 and seven 0 bits are the byte 0x80; the fewest zero bytes that
    make the length congruent to 56 modulo 64; the length in bits as a 64-bit number. *)
Definition zero_count (n : N) : N := (119 - n mod 64) mod 64.
Definition pad (m : list N) : list N :=
  m ++ [128] ++ repeat 0 (N.to_nat (zero_count (nlen m))) ++ be_bytes 8 (8 * nlen m).

(** 5.2.1: blocks of 16 words. *)
Fixpoint chunks (n : nat) (size : nat) (l : list N) : list (list N) :=
  match n with O => [] | S n' => firstn size l :: chunks n' size (skipn size l) end.
Definition block_words (b : list N) : list N := map be_val (chunks 16 4 b).
Definition blocks (l : list N) : list (list N) := chunks (Nat.div (length l) 64) 64 l.

(** 6.2.2 step 1: the message schedule; [schedule t w] has t more words than w. *)
Fixpoint schedule (n : nat) (w : list N) : list N :=
  match n with
  | O => w
  | S n' =>
      let W k := nth (length w - k) w 0 in
      schedule n' (w ++ [plus (plus (plus (sigma1 (W 2%nat)) (W 7%nat)) (sigma0 (W 15%nat))) (W 16%nat)])
  end.

(** 6.2.2 step 3 *)
Definition working := (N * N * N * N * N * N * N * N)%type.
Definition step (s : working) (kw : N * N) : working :=
  let '(a, b, c, d, e, f, g, h) := s in
  let T1 := plus (plus (plus (plus h (Sigma1 e)) (Ch e f g)) (fst kw)) (snd kw) in
  let T2 := plus (Sigma0 a) (Maj a b c) in
  (plus T1 T2, a, b, c, plus d T1, e, f, g).

(** 6.2.2 steps 2-4: one block. *)
Definition compress (H : list N) (b : list N) : list N :=
  match H with
  | [a; b0; c; d; e; f; g; h] =>
      let '(a', b', c', d', e', f', g', h') :=
        fold_left step (combine K (schedule 48 (block_words b))) (a, b0, c, d, e, f, g, h) in
      [plus a' a; plus b' b0; plus c' c; plus d' d; plus e' e; plus f' f; plus g' g; plus h' h]
  | _ => []
  end.

Definition hash_words (m : list N) : list N := fold_left compress (blocks (pad m)) H0.
Definition sha256 (m : list N) : list N := concat (map (be_bytes 4) (hash_words m)).

(** Lower-case hexadecimal text of bytes. *)
Definition hex_digit (v : N) : N := if v <? 10 then 48 + v else 87 + v.
Definition hex (l : list N) : list N := concat (map (fun b => [hex_digit (b / 16); hex_digit (b mod 16)]) l).

(** The test vector of FIPS 180 for "abc" (a check of this specification, not a proof
    about the code). *)
Example sha256_abc : sha256 [97;98;99] =
  [186;120;22;191;143;1;207;234;65;65;64;222;93;174;34;35;176;3;97;163;150;23;122;156;180;16;255;97;242;0;21;173].
Proof. vm_compute. reflexivity. Qed.
