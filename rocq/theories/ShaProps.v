(** Properties C23, C24, C25: SHA-256.  [sha256] (ShaSpec.v) is the function of FIPS 180-4. *)
From Coq Require Import List NArith ZArith Lia Bool.
From Coq Require Import ZifyN ZifyNat ZifyBool.
From Verif Require Import Bytes BytesProofs ShaModel ShaSpec ShaProofs.
Import ListNotations.
Open Scope N_scope.

(** The standard defines the digest for messages below 2^64 bits. *)
Definition max_bytes : N := 2305843009213693952.
Example max_bytes_ok : 8 * max_bytes = 2 ^ 64. Proof. reflexivity. Qed.

(** C23. For every message, whatever the object was used for before ([s]) and whatever the
    uninitialised memory holds ([extra]): the text returned is the digest of the standard in
    lower-case hexadecimal, and no array is left. *)
Theorem C23_sha256_correct : forall extra m s,
  length extra = 64%nat -> length (s_buf s) = 64%nat -> bytes_ok m -> nlen m < max_bytes ->
  exists s', sha_of extra m s = Some (hex (sha256 m), s').
Proof.
  intros extra m s Lx Ls Hm Hn. unfold sha_of.
  destruct (add_ok (reset (s_buf s)) [] [] m (repr_reset _ Ls) Hm) as (s1 & B & p & E & R & Em).
  rewrite E. cbn [bind app] in *.
  destruct (get_hash_ok s1 B p extra R Lx) as (s2 & E2 & _); [rewrite Em; exact Hn|].
  exists s2. rewrite E2, Em. reflexivity.
Qed.
Print Assumptions C23_sha256_correct.

(** C24, C25. Any use of one object: pieces added, digests requested, resets, in any order.
    Every digest requested is the digest of the concatenation of the pieces added since the
    last reset, regardless of how the message was split and of digests requested before. *)
Fixpoint expected (ops : list shaop) (m : list N) : list (list N) :=
  match ops with
  | [] => []
  | OpAdd d :: ops' => expected ops' (m ++ d)
  | OpGet _ :: ops' => hex (sha256 m) :: expected ops' m
  | OpReset :: ops' => expected ops' []
  end.
Definition op_ok (op : shaop) : Prop :=
  match op with OpAdd d => bytes_ok d | OpGet x => length x = 64%nat | OpReset => True end.
Definition op_bytes (op : shaop) : N := match op with OpAdd d => nlen d | _ => 0 end.

Lemma run_expected : forall ops s B p, repr s B p -> Forall op_ok ops ->
  nlen (B ++ p) + fold_right (fun op n => op_bytes op + n) 0 ops < max_bytes ->
  sha_run ops s = Some (expected ops (B ++ p)).
Proof.
  induction ops as [|op ops IH]; intros s B p R Hok Hn; cbn [sha_run expected]; [reflexivity|].
  inversion_clear Hok as [|? ? H1 H2]. cbn [fold_right] in Hn.
  destruct op as [d|x|]; cbn [op_ok op_bytes] in *.
  - destruct (add_ok s B p d R H1) as (s1 & B1 & p1 & E & R1 & E1). rewrite E. cbn [bind].
    rewrite <- app_assoc, <- E1. apply IH; [exact R1|exact H2|]. rewrite E1, app_assoc, nlen_app. lia.
  - destruct (get_hash_ok s B p x R H1) as (s1 & E & R1); [unfold max_bytes in Hn; lia|].
    rewrite E. cbn [bind]. rewrite (IH s1 B p R1 H2) by lia. reflexivity.
  - change (@nil N) with (@nil N ++ []) at 1. apply IH; [apply repr_reset, (r_len _ _ _ R)|exact H2|].
    cbn [app]. change (nlen (@nil N)) with 0. lia.
Qed.

Theorem C24_streaming : forall ops buf, length buf = 64%nat -> Forall op_ok ops ->
  fold_right (fun op n => op_bytes op + n) 0 ops < max_bytes ->
  sha_run ops (reset buf) = Some (expected ops []).
Proof.
  intros ops buf L Hok Hn. apply (run_expected ops (reset buf) [] []); [apply repr_reset, L|exact Hok|].
  cbn [app]. change (nlen (@nil N)) with 0. lia.
Qed.
Print Assumptions C24_streaming.

(** C24 in the form of the property: two splits of one message, same digest. *)
Theorem C24_split_irrelevant : forall ps qs buf extra, length buf = 64%nat -> length extra = 64%nat ->
  Forall bytes_ok ps -> Forall bytes_ok qs -> concat ps = concat qs -> nlen (concat ps) < max_bytes ->
  sha_run (map OpAdd ps ++ [OpGet extra]) (reset buf) = sha_run (map OpAdd qs ++ [OpGet extra]) (reset buf) /\
  sha_run (map OpAdd ps ++ [OpGet extra]) (reset buf) = Some [hex (sha256 (concat ps))].
Proof.
  intros ps qs buf extra Lb Lx Hp Hq E Hn.
  assert (G : forall ps, Forall bytes_ok ps -> nlen (concat ps) < max_bytes ->
     sha_run (map OpAdd ps ++ [OpGet extra]) (reset buf) = Some [hex (sha256 (concat ps))]).
  { clear - Lb Lx. intros ps Hp Hn. rewrite C24_streaming; [|exact Lb| |].
    - assert (X : forall ps m, expected (map OpAdd ps ++ [OpGet extra]) m = [hex (sha256 (m ++ concat ps))]).
      { clear. induction ps as [|a ps IH]; intros m; cbn [map app expected concat]; [rewrite app_nil_r; reflexivity|].
        rewrite IH, app_assoc. reflexivity. }
      rewrite X. reflexivity.
    - apply Forall_app. split; [|repeat constructor; exact Lx]. clear - Hp. induction Hp; constructor; assumption.
    - replace (fold_right _ _ _) with (nlen (concat ps)); [exact Hn|]. clear.
      induction ps as [|a ps IH]; cbn [map app concat fold_right op_bytes]; [reflexivity|]. rewrite nlen_app, IH. reflexivity. }
  rewrite (G ps Hp Hn). rewrite (G qs Hq) by (rewrite <- E; exact Hn). rewrite E. split; reflexivity.
Qed.
Print Assumptions C24_split_irrelevant.

(** C25. Requesting digests in between changes no later digest: dropping a request from any
    history only drops its own result. *)
Theorem C25_digest_repeatable : forall ops1 ops2 extra buf, length buf = 64%nat -> length extra = 64%nat ->
  Forall op_ok (ops1 ++ ops2) -> fold_right (fun op n => op_bytes op + n) 0 (ops1 ++ ops2) < max_bytes ->
  exists r1 d r2, sha_run (ops1 ++ ops2) (reset buf) = Some (r1 ++ r2) /\
    sha_run (ops1 ++ OpGet extra :: ops2) (reset buf) = Some (r1 ++ d :: r2) /\
    sha_run (ops1 ++ OpGet extra :: OpGet extra :: ops2) (reset buf) = Some (r1 ++ d :: d :: r2).
Proof.
  intros ops1 ops2 extra buf Lb Lx Hok Hn.
  assert (X : forall ops1 m, exists r1 m', forall ops, expected (ops1 ++ ops) m = r1 ++ expected ops m').
  { clear. induction ops1 as [|op ops1 IH]; intros m; [exists [], m; reflexivity|].
    destruct op as [d|x|]; cbn [app expected].
    - apply IH.
    - destruct (IH m) as (r1 & m' & E). exists (hex (sha256 m) :: r1), m'. intros ops. rewrite E. reflexivity.
    - apply IH. }
  destruct (X ops1 []) as (r1 & m' & E). apply Forall_app in Hok. destruct Hok as [H1 H2].
  assert (V : forall k, fold_right (fun op n => op_bytes op + n) 0 (ops1 ++ repeat (OpGet extra) k ++ ops2) < max_bytes).
  { intros k. replace (fold_right _ _ _) with (fold_right (fun op n => op_bytes op + n) 0 (ops1 ++ ops2)); [exact Hn|].
    rewrite !fold_right_app. f_equal. induction k as [|k IH]; [reflexivity|]. cbn [repeat fold_right op_bytes]. rewrite <- IH. reflexivity. }
  exists r1, (hex (sha256 m')), (expected ops2 m').
  split; [|split].
  - rewrite C24_streaming, E; [reflexivity|exact Lb|apply Forall_app; split; assumption|exact Hn].
  - rewrite C24_streaming, E; [reflexivity|exact Lb|apply Forall_app; split; [assumption|constructor; [exact Lx|assumption]]|exact (V 1%nat)].
  - rewrite C24_streaming, E; [reflexivity|exact Lb|apply Forall_app; split; [assumption|repeat (constructor; [exact Lx|]); assumption]|exact (V 2%nat)].
Qed.
Print Assumptions C25_digest_repeatable.

(** The hypotheses hold for a run that splits a 60-byte message and asks twice (60 bytes
    make the padding overflow into a second block). *)
Example C24_hyps : let ops := [OpAdd (repeat 7 40); OpGet (repeat 1 64); OpAdd (repeat 8 20); OpGet (repeat 2 64)] in
  Forall op_ok ops /\ fold_right (fun op n => op_bytes op + n) 0 ops = 60 /\
  sha_run ops (reset (repeat 9 64)) = Some (expected ops []).
Proof.
  cbv zeta. assert (H : Forall op_ok [OpAdd (repeat 7 40); OpGet (repeat 1 64); OpAdd (repeat 8 20); OpGet (repeat 2 64)]).
  { repeat constructor. }
  split; [exact H|]. split; [reflexivity|]. apply C24_streaming; [reflexivity|exact H|reflexivity].
Qed.
