(** Properties C01-C05 (MVRxchange packets). *)
From Coq Require Import List NArith ZArith Lia Bool.
From Verif Require Import Bytes BytesProofs PacketModel PacketProofs.
Import ListNotations.
Open Scope N_scope.

(** C01.  Encoding writes exactly the 28 bytes of the documented big-endian format at the
    start of the buffer, and any receiver that finds these bytes at the start of its
    buffer decodes the same field values (its buffer then only has to grow for the body). *)
Theorem C01_header_round_trip :
  forall p b, dbuf (pdata p) = Some b -> 28 <= bsize b -> pflag p = pkg_flag ->
  fields_ok (pversion p) (pnumber p) (pcount p) (ptype p) (pbody p) ->
  exists p' b', encode_header p = Ok p' /\ dbuf (pdata p') = Some b' /\
    blk_read b' 0 28 = Ok (map Some (wire_header pkg_flag (pversion p) (pnumber p) (pcount p) (ptype p) (pbody p))) /\
    (forall q b0 bq, dbuf (pdata q) = Some bq ->
       blk_write b0 0 (wire_header pkg_flag (pversion p) (pnumber p) (pcount p) (ptype p) (pbody p)) = Ok bq ->
       decode_header q =
       bind (grow_to (pdata q) (pbody p)) (fun d =>
         Ok (true, {| pflag := pkg_flag; pversion := pversion p; pnumber := pnumber p; pcount := pcount p;
                      ptype := ptype p; pbody := pbody p; pdata := d |}))).
Proof.
  intros p b Hb H28 Hf Hok.
  assert (Hf32 : pflag p < two32) by (rewrite Hf; reflexivity).
  destruct (encode_header_image p b Hb H28 Hf32 Hok) as (p' & b' & E & Hb' & W & _).
  exists p', b'. split; [exact E|]. split; [exact Hb'|]. rewrite Hf in W. split.
  - pose proof (blk_read_write_all _ _ _ _ W) as R. rewrite wire_header_length in R. exact R.
  - intros q b0 bq Hq Wq. rewrite (decode_wire q bq b0 _ _ _ _ _ _ Hq Wq) by (reflexivity || exact Hok).
    rewrite N.eqb_refl. reflexivity.
Qed.
Print Assumptions C01_header_round_trip.

Definition nv {A} (r : res A) : Prop := match r with Ok _ => True | _ => False end.
Example C01_hyps : exists p b, dbuf (pdata p) = Some b /\ 28 <= bsize b /\ pflag p = pkg_flag /\
  fields_ok (pversion p) (pnumber p) (pcount p) (ptype p) (pbody p) /\ pversion p = 1 /\ ptype p = 1 /\ pbody p = 305419896.
Proof.
  exists {| pflag := pkg_flag; pversion := 1; pnumber := 0; pcount := 1; ptype := 1; pbody := 305419896;
            pdata := {| dbuf := Some (new_block 64); dsize := 64; dalloc := 64 |} |}, (new_block 64).
  repeat split; vm_compute; reflexivity || discriminate.
Qed.

(** C02.  A 28-byte block is refused exactly when its first four bytes are not the flag; a
    refused header leaves version, number, count, type, body length and the buffer alone. *)
Theorem C02_foreign_header_refused :
  forall p b b0 h, bytes_ok h -> length h = 28%nat ->
  dbuf (pdata p) = Some b -> blk_write b0 0 h = Ok b -> be_val (firstn 4 h) <> pkg_flag ->
  exists p', decode_header p = Ok (false, p') /\ pversion p' = pversion p /\ pnumber p' = pnumber p /\
    pcount p' = pcount p /\ ptype p' = ptype p /\ pbody p' = pbody p /\ pdata p' = pdata p.
Proof.
  intros p b b0 h Hok Hl Hb W Hne.
  destruct (split_header h Hok Hl) as (fl & ve & nu & co & ty & bo & E & Hf & Hflds & V). subst h.
  rewrite (decode_wire p b b0 _ _ _ _ _ _ Hb W Hf Hflds).
  destruct (N.eqb_spec fl pkg_flag) as [C|_]; [congruence|].
  eexists. split; [reflexivity|]. repeat split.
Qed.
Print Assumptions C02_foreign_header_refused.

Theorem C02_flagged_header_accepted :
  forall p b b0 h, bytes_ok h -> length h = 28%nat ->
  dbuf (pdata p) = Some b -> blk_write b0 0 h = Ok b -> be_val (firstn 4 h) = pkg_flag ->
  forall p', decode_header p <> Ok (false, p').
Proof.
  intros p b b0 h Hok Hl Hb W He p'.
  destruct (split_header h Hok Hl) as (fl & ve & nu & co & ty & bo & E & Hf & Hflds & V). subst h.
  rewrite (decode_wire p b b0 _ _ _ _ _ _ Hb W Hf Hflds).
  destruct (N.eqb_spec fl pkg_flag) as [_|C]; [|congruence].
  destruct (grow_to (pdata p) bo); cbn [bind]; discriminate.
Qed.
Print Assumptions C02_flagged_header_accepted.

(** C03.  Framing on a newly constructed packet. *)
Theorem C03_payload_framing :
  forall v p body, packet_new v = Ok p -> v < two32 -> header_len + nlen body + 1 <= max_alloc ->
  exists p1 p2, set_body p body = Ok p1 /\ get_body p1 = Ok (map Some body) /\
    packet_length p1 = 28 + nlen body /\
    encode_header p1 = Ok p2 /\ get_body p2 = Ok (map Some body) /\
    wire p2 = Ok (map Some (wire_header pkg_flag v 0 0 0 (nlen body) ++ body)).
Proof.
  intros v p body Hn Hv Hb. destruct (packet_new_fresh v) as (p0 & E0 & F & Hf & Hver & H0 & H1 & H2 & H3).
  assert (p0 = p) by congruence. subst p0.
  destruct (set_encode_wire p body F Hb Hf) as (p1 & p2 & E1 & E2 & G2 & W).
  { rewrite Hver, H0, H1, H2. unfold fields_ok, two64, two32, max_alloc, header_len in *. lia. }
  destruct (set_body_get_body p body F Hb) as (p1' & E1' & G1 & L1).
  assert (p1' = p1) by congruence. subst p1'.
  exists p1, p2. rewrite Hver, H0, H1, H2 in W. repeat split; assumption.
Qed.
Print Assumptions C03_payload_framing.

(** C03/C04 together: a body of at most 31457253 bytes sent by one newly constructed packet
    arrives unchanged, with the same header fields, in another one. *)
Theorem C03_transfer :
  forall v w p q body p1 p2, packet_new v = Ok p -> packet_new w = Ok q -> v < two32 ->
  nlen body <= recv_limit -> set_body p body = Ok p1 -> encode_header p1 = Ok p2 ->
  forall bs, wire p2 = Ok (map Some bs) ->
  exists q', receive q (firstn 28 bs) (skipn 28 bs) = Ok (Some q') /\
    pversion q' = v /\ pnumber q' = 0 /\ pcount q' = 0 /\ ptype q' = 0 /\ pbody q' = nlen body /\
    get_body q' = Ok (map Some body).
Proof.
  intros v w p q body p1 p2 Hp Hq Hv Hb E1 E2 bs Hw.
  assert (HM : header_len + nlen body + 1 <= max_alloc) by (unfold header_len, max_alloc, recv_limit in *; lia).
  destruct (C03_payload_framing v p body Hp Hv HM) as (p1' & p2' & E1' & _ & _ & E2' & _ & W').
  assert (p1' = p1) by congruence. subst p1'. assert (p2' = p2) by congruence. subst p2'.
  rewrite Hw in W'. apply Ok_inj in W'.
  assert (bs = wire_header pkg_flag v 0 0 0 (nlen body) ++ body).
  { revert W'. generalize (wire_header pkg_flag v 0 0 0 (nlen body) ++ body). clear.
    induction bs as [|x bs IH]; intros [|y l] H; try discriminate; [reflexivity|].
    cbn [map] in H. inversion H; subst. f_equal. apply IH. assumption. }
  subst bs. rewrite (firstn_exact 28), (skipn_exact 28) by apply wire_header_length.
  destruct (packet_new_fresh w) as (q0 & Eq & F & _). assert (q0 = q) by congruence. subst q0.
  destruct (receive_cases q pkg_flag v 0 0 0 (nlen body) body F) as [_ R].
  - reflexivity.
  - unfold fields_ok, two64, two32, recv_limit in *. lia.
  - reflexivity.
  - apply R; [reflexivity|exact Hb].
Qed.
Print Assumptions C03_transfer.

Example C03_hyps : exists p, packet_new 7 = Ok p /\ nlen [1;2;3] <= recv_limit.
Proof. destruct (packet_new_fresh 7) as (p & E & _). exists p. split; [exact E|]. vm_compute. discriminate. Qed.

(** C04.  The receive path of a newly constructed packet, for every announced length: the body
    read stays inside the allocation exactly up to 31457253 bytes.  Above that the read is
    out of bounds, or the allocation request throws. *)
Theorem C04_receive_exact :
  forall w q ve nu co ty bo body, packet_new w = Ok q -> fields_ok ve nu co ty bo -> nlen body = bo ->
  (bo <= recv_limit -> exists q', receive q (wire_header pkg_flag ve nu co ty bo) body = Ok (Some q') /\
        get_body q' = Ok (map Some body)) /\
  (recv_limit < bo < max_alloc \/ bo = two64 - 1 ->
        receive q (wire_header pkg_flag ve nu co ty bo) body = OutOfBounds) /\
  (max_alloc <= bo < two64 - 1 -> receive q (wire_header pkg_flag ve nu co ty bo) body = Throws).
Proof.
  intros w q ve nu co ty bo body Hq Hok Hb.
  destruct (packet_new_fresh w) as (q0 & Eq & F & _). assert (q0 = q) by congruence. subst q0.
  destruct (receive_cases q pkg_flag ve nu co ty bo body F) as [R1 R2]; [reflexivity|exact Hok|exact Hb|].
  rewrite N.eqb_refl in R1. split; [|split].
  - intros L. destruct (R2 eq_refl L) as (q' & E & _ & _ & _ & _ & _ & G). exists q'. split; assumption.
  - intros H. rewrite R1. destruct (N.eqb_spec bo (two64 - 1)); [reflexivity|].
    destruct H as [[H1 H2]|H]; [|congruence].
    destruct (N.leb_spec max_alloc bo); [lia|]. destruct (N.ltb_spec recv_limit bo); [reflexivity|lia].
  - intros [H1 H2]. rewrite R1. destruct (N.eqb_spec bo (two64 - 1)); [lia|].
    destruct (N.leb_spec max_alloc bo); [reflexivity|lia].
Qed.
Print Assumptions C04_receive_exact.

(** The expectation "the body read never writes outside the allocation" is false: a
    well-formed packet announcing and carrying 31457254 bytes (30 MiB - 26) overflows. *)
Theorem C04_receive_in_bounds_refuted :
  exists w q h body, packet_new w = Ok q /\ bytes_ok h /\ length h = 28%nat /\
    receive q h body = OutOfBounds.
Proof.
  destruct (packet_new_fresh 0) as (q & Eq & _).
  exists 0, q, (wire_header pkg_flag 1 0 1 1 31457254), (repeat 0 (N.to_nat 31457254)).
  split; [exact Eq|]. split; [|split; [apply wire_header_length|]].
  - unfold wire_header. rewrite !bytes_ok_app. repeat split; apply be_bytes_ok.
  - destruct (C04_receive_exact 0 q 1 0 1 1 31457254 (repeat 0 (N.to_nat 31457254)) Eq) as (_ & H & _).
    + unfold fields_ok, two32, two64. lia.
    + unfold nlen. rewrite repeat_length. lia.
    + apply H. left. unfold recv_limit, max_alloc. lia.
Qed.
Print Assumptions C04_receive_in_bounds_refuted.

(** C05.  Every history of Append/FromBuffer starting from an empty buffer keeps the
    allocation discipline and holds exactly the expected bytes. *)
Theorem C05_append_history :
  forall ops, dtotal ops + 5120 <= max_alloc ->
  exists d, drun dyn_empty ops = Ok d /\ dsize d = nlen (fold_left dspec ops []) /\
    (fold_left dspec ops [] <> [] -> exists b, dbuf d = Some b /\
       blk_read b 0 (length (fold_left dspec ops [])) = Ok (map Some (fold_left dspec ops []))).
Proof.
  intros ops H. destruct (drun_holds ops dyn_empty [] holds_empty) as (d & E & (Hs & Ha & Hb)); [rewrite nlen_nil; lia|].
  exists d. split; [exact E|]. split; [exact Hs|]. intros NE. destruct (dbuf d) as [b|].
  - exists b. split; [reflexivity|]. apply Hb.
  - destruct Hb as [C _]. congruence.
Qed.
Print Assumptions C05_append_history.
Example C05_hyps : dtotal [DAppend [1;2]; DFrom [3]; DAppend []; DAppend [4;5;6]] + 5120 <= max_alloc /\
  fold_left dspec [DAppend [1;2]; DFrom [3]; DAppend []; DAppend [4;5;6]] [] = [3;4;5;6].
Proof. split; [vm_compute; discriminate|reflexivity]. Qed.

(** GrowTo breaks the discipline: any two growths beyond the pre-allocation read outside
    the old block, for every pair of sizes. *)
Theorem C05_second_growth_out_of_bounds :
  forall v p n m, packet_new v = Ok p -> prealloc <= n -> n < m -> m < max_alloc ->
  bind (grow_to (pdata p) n) (fun d => grow_to d m) = OutOfBounds.
Proof.
  intros v p n m Hp. destruct (packet_new_fresh v) as (p0 & E & F & _). assert (p0 = p) by congruence. subst p0.
  apply grow_twice. exact F.
Qed.
Print Assumptions C05_second_growth_out_of_bounds.

Theorem C05_growth_preserves_content_refuted :
  exists v p n m, packet_new v = Ok p /\ bind (grow_to (pdata p) n) (fun d => grow_to d m) = OutOfBounds.
Proof.
  destruct (packet_new_fresh 0) as (p & E & _). exists 0, p, 31457281, 31457282. split; [exact E|].
  apply (C05_second_growth_out_of_bounds 0 p _ _ E); unfold prealloc, max_alloc; lia.
Qed.
Print Assumptions C05_growth_preserves_content_refuted.
