(** Properties C21 and C22: the byte buffers behind an archive. *)
From Coq Require Import List NArith ZArith Lia Bool.
From Coq Require Import ZifyN ZifyNat ZifyBool.
From Verif Require Import Bytes BytesProofs ZipBufModel ZipBufProofs.
Import ListNotations.
Open Scope N_scope.
Ltac Zify.zify_post_hook ::= Z.div_mod_to_equations.

(** What was written since the last clean. *)
Fixpoint written (ops : list zbop) (acc : list N) : list N :=
  match ops with
  | [] => acc
  | ZWrite _ d :: ops' => written ops' (acc ++ d)
  | ZClean :: ops' => written ops' []
  end.
Definition volume (ops : list zbop) : N :=
  fold_right (fun op s => match op with ZWrite _ d => nlen d | ZClean => 0 end + s) 0 ops.

(** C21. Any sequence of writes and cleans stays inside its allocations; what Close flushes
    is the concatenation of the writes since the last clean; what is read at an in-range
    position is that part of it.  (Total volume below 2^64 - 5120 bytes.) *)
Lemma C21_gen ops : forall b l, zinv b l -> nlen l + volume ops + 5120 < two64 ->
  exists b', zb_run ops b = BOk b' /\ zinv b' (written ops l).
Proof.
  induction ops as [|[p d|] ops IH]; intros b l Hi Hv; cbn [zb_run written].
  - exists b. auto.
  - unfold volume in Hv. cbn [fold_right] in Hv. fold (volume ops) in Hv.
    destruct (zb_write_ok p d b l Hi ltac:(lia)) as (b' & E & Hi'). rewrite E. cbn [bbind].
    apply IH; [exact Hi'|]. rewrite nlen_app. lia.
  - apply IH; [apply zinv_init|]. unfold volume in Hv. cbn [fold_right] in Hv. fold (volume ops) in Hv. rewrite nlen_nil. lia.
Qed.

Theorem C21_write_buffer : forall ops, volume ops + 5120 < two64 ->
  exists b, zb_run ops zb_init = BOk b /\
    zb_contents b = BOk (written ops []) /\
    zb_size b = nlen (written ops []) /\
    (forall p n, p + n <= nlen (written ops []) -> zb_read p n b = BOk (slice p n (written ops []))).
Proof.
  intros ops Hv. destruct (C21_gen ops zb_init [] zinv_init) as (b & E & Hi); [rewrite nlen_nil; lia|].
  exists b. repeat split; [exact E|apply zb_contents_ok; exact Hi|apply Hi|].
  intros p n Hp. apply (zb_read_ok b _ p n Hi Hp).
Qed.
Print Assumptions C21_write_buffer.

(** The hypothesis holds and the growth path is taken: two writes around a clean. *)
Example C21_hyps : let ops := [ZWrite 0 [1;2]; ZClean; ZWrite 7 [3]; ZWrite 0 [4;5]] in
  volume ops + 5120 < two64 /\ written ops [] = [3;4;5].
Proof. cbn. split; [unfold two64; lia|reflexivity]. Qed.

(** C21 as a caller of Write(position, ...) would expect it: writing at position 0 of a
    buffer replaces its first bytes.  The position is ignored: the data is appended. *)
Theorem C21_write_at_position_refuted :
  exists d1 d2 b, zb_run [ZWrite 0 d1; ZWrite 0 d2] zb_init = BOk b /\
    nlen d1 = nlen d2 /\ zb_contents b <> BOk d2.
Proof.
  exists [1], [2]. destruct (C21_write_buffer [ZWrite 0 [1]; ZWrite 0 [2]]) as (b & E & Hc & _); [cbn; unfold two64; lia|].
  exists b. repeat split; [exact E|]. rewrite Hc. discriminate.
Qed.
Print Assumptions C21_write_at_position_refuted.

(** C22. Content after a sequence of SetData/AppendData: nothing before the first call. *)
Fixpoint io_spec (ops : list ioop) (acc : option (list N)) : option (list N) :=
  match ops with
  | [] => acc
  | IOSet d :: ops' => io_spec ops' (Some d)
  | IOAppend d :: ops' => io_spec ops' (Some (match acc with Some a => a ++ d | None => d end))
  end.
Definition io_volume (ops : list ioop) : N :=
  fold_right (fun op s => match op with IOSet d | IOAppend d => nlen d end + s) 0 ops.

Lemma C22_gen ops : forall b l, ioinv b l -> nlen (match l with Some x => x | None => [] end) + io_volume ops + 1 < two64 ->
  exists b', io_run ops b = BOk b' /\ ioinv b' (io_spec ops l).
Proof.
  induction ops as [|[d|d] ops IH]; intros b l Hi Hv; cbn [io_run io_spec].
  - exists b. auto.
  - unfold io_volume in Hv. cbn [fold_right] in Hv. fold (io_volume ops) in Hv.
    destruct (io_set_ok b d ltac:(lia)) as (b' & E & Hi'). rewrite E. cbn [bbind].
    apply IH; [exact Hi'|lia].
  - unfold io_volume in Hv. cbn [fold_right] in Hv. fold (io_volume ops) in Hv.
    destruct (io_append_ok b l d Hi ltac:(lia)) as (b' & E & Hi'). rewrite E. cbn [bbind].
    assert (EQ : Some (match l with Some a => a ++ d | None => d end) = Some (match l with Some x => x | None => [] end ++ d))
      by (destruct l; reflexivity).
    rewrite EQ. apply IH; [exact Hi'|]. destruct l as [x|]; [rewrite nlen_app; lia|]. cbn [app]. rewrite nlen_nil in Hv. lia.
Qed.

Theorem C22_io_buffer : forall ops, io_volume ops + 1 < two64 ->
  exists b, io_run ops io_init = BOk b /\
    io_size b = nlen (match io_spec ops None with Some l => l | None => [] end) /\
    (forall n, io_copy n b = BOk (match io_spec ops None with
                                  | None => None
                                  | Some l => Some (firstn (N.to_nat n) l) end)).
Proof.
  intros ops Hv. destruct (C22_gen ops io_init None) as (b & E & Hi); [reflexivity|rewrite nlen_nil; lia|].
  exists b. repeat split; [exact E| |intros n; apply io_copy_ok; exact Hi].
  unfold ioinv in Hi. destruct (io_spec ops None); destruct (io_mem b); try contradiction; [apply Hi|exact Hi].
Qed.
Print Assumptions C22_io_buffer.

Example C22_hyps : let ops := [IOAppend [1;2]; IOAppend [3]; IOSet [4]; IOAppend [5;6]] in
  io_volume ops + 1 < two64 /\ io_spec ops None = Some [4;5;6].
Proof. cbn. split; [unfold two64; lia|reflexivity]. Qed.
