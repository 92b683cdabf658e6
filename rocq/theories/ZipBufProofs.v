(** Lemmas about [ZipBufModel]. *)
From Coq Require Import List NArith ZArith Lia Bool.
From Coq Require Import ZifyN ZifyNat ZifyBool.
From Verif Require Import Bytes BytesProofs ZipBufModel.
Import ListNotations.
Open Scope N_scope.
Ltac Zify.zify_post_hook ::= Z.div_mod_to_equations.

Lemma nlen_map {A B} (f : A -> B) l : nlen (map f l) = nlen l.
Proof. unfold nlen. rewrite map_length. reflexivity. Qed.
Lemma nlen_fresh n : nlen (fresh n) = n.
Proof. unfold fresh, nlen. rewrite repeat_length. lia. Qed.
Lemma nlen_firstn {A} n (l : list A) : n <= nlen l -> nlen (firstn (N.to_nat n) l) = n.
Proof. unfold nlen. intros H. rewrite firstn_length. lia. Qed.
Lemma nlen_skipn {A} n (l : list A) : n <= nlen l -> nlen (skipn (N.to_nat n) l) = nlen l - n.
Proof. unfold nlen. intros H. rewrite skipn_length. lia. Qed.

Lemma defined_map l : defined (map Some l) = BOk l.
Proof. induction l as [|b l IH]; cbn [map defined]; [reflexivity|]. rewrite IH. reflexivity. Qed.

Lemma u64_small x : x < two64 -> u64 x = x.
Proof. intros H. unfold u64. apply N.mod_small. exact H. Qed.

(** A block that starts with the bytes [l] followed by [k] further cells. *)
Definition holds (m : cells) (l : list N) (k : N) : Prop := exists rest, m = map Some l ++ rest /\ nlen rest = k.

Lemma put_end m l k d : holds m l k -> nlen d <= k ->
  exists m', put (nlen l) (map Some d) m = BOk m' /\ holds m' (l ++ d) (k - nlen d).
Proof.
  intros (rest & -> & Hk) Hd. unfold put. rewrite nlen_app, !nlen_map.
  replace (nlen l + nlen d <=? nlen l + nlen rest) with true by lia.
  eexists. split; [reflexivity|]. exists (skipn (N.to_nat (nlen d)) rest). split.
  - rewrite firstn_exact by (rewrite map_length; unfold nlen; lia).
    rewrite skipn_app, skipn_all2 by (rewrite map_length; unfold nlen; lia). cbn [app].
    rewrite map_app, <- app_assoc. do 3 f_equal. rewrite map_length. unfold nlen. lia.
  - rewrite nlen_skipn by lia. lia.
Qed.

Lemma put0_fresh l n : nlen l <= n -> exists m', put 0 (map Some l) (fresh n) = BOk m' /\ holds m' l (n - nlen l).
Proof.
  intros H. destruct (put_end (fresh n) [] n l) as (m' & E & Hm).
  - exists (fresh n). split; [reflexivity|apply nlen_fresh].
  - exact H.
  - exists m'. auto.
Qed.

Lemma get_prefix m l k n : holds m l k -> n <= nlen l -> get 0 n m = BOk (map Some (firstn (N.to_nat n) l)).
Proof.
  intros (rest & -> & Hk) Hn. unfold get. rewrite nlen_app, nlen_map.
  replace (0 + n <=? nlen l + nlen rest) with true by lia.
  unfold slice. cbn [N.to_nat skipn]. rewrite firstn_app. replace (N.to_nat n - length (map Some l))%nat with 0%nat by (rewrite map_length; unfold nlen in *; lia).
  cbn [firstn]. rewrite app_nil_r, firstn_map. reflexivity.
Qed.

Lemma get_all m l k : holds m l k -> get 0 (nlen l) m = BOk (map Some l).
Proof. intros H. rewrite (get_prefix m l k) by (assumption || lia). do 2 f_equal. unfold nlen. rewrite Nat2N.id. apply firstn_all. Qed.

(** ** ZIPFileBuffer *)
Definition zinv (b : zbuf) (l : list N) : Prop :=
  zb_size b = nlen l /\ zb_size b <= zb_alloc b /\
  match zb_mem b with
  | None => l = [] /\ zb_alloc b = 0
  | Some m => holds m l (zb_alloc b - zb_size b)
  end.

Lemma zinv_init : zinv zb_init [].
Proof. unfold zinv. cbn. repeat split. lia. Qed.

Lemma zb_write_ok p d b l : zinv b l -> nlen l + nlen d + 5120 < two64 ->
  exists b', zb_write p d b = BOk b' /\ zinv b' (l ++ d).
Proof.
  intros (Hs & Ha & Hm) Hb. unfold zb_write. rewrite Hs. rewrite (u64_small (nlen l + nlen d)) by lia.
  destruct (nlen l + nlen d <=? zb_alloc b) eqn:C.
  - destruct (zb_mem b) as [m|] eqn:Em.
    + destruct (put_end m l (zb_alloc b - zb_size b) d Hm ltac:(lia)) as (m' & E & H'). cbn [mem_of].
      rewrite E. cbn [bbind]. eexists. split; [reflexivity|]. unfold zinv. cbn [zb_size zb_alloc zb_mem].
      rewrite nlen_app. repeat split; try lia. replace (zb_alloc b - (nlen l + nlen d)) with (zb_alloc b - zb_size b - nlen d) by lia. exact H'.
    + destruct Hm as [-> Hz]. rewrite Hz in C. rewrite nlen_nil in *. assert (nlen d = 0) as Hd by lia. apply nlen_0 in Hd. subst d.
      cbn [bbind put map mem_of]. unfold put. cbn. eexists. split; [reflexivity|]. unfold zinv. cbn. rewrite Hz. repeat split; lia.
  - rewrite (u64_small (nlen l + nlen d + 5120)) by lia.
    assert (H1 : exists t1, match zb_mem b with
           | None => BOk (fresh (nlen l + nlen d + 5120))
           | Some m => bbind (get 0 (nlen l) m) (fun old => put 0 old (fresh (nlen l + nlen d + 5120)))
           end = BOk t1 /\ holds t1 l (nlen d + 5120)).
    { destruct (zb_mem b) as [m|].
      - rewrite (get_all m l _ Hm). cbn [bbind].
        destruct (put0_fresh l (nlen l + nlen d + 5120) ltac:(lia)) as (m' & E & H'). exists m'. split; [exact E|].
        replace (nlen d + 5120) with (nlen l + nlen d + 5120 - nlen l) by lia. exact H'.
      - destruct Hm as [-> _]. rewrite nlen_nil. eexists. split; [reflexivity|].
        exists (fresh (0 + nlen d + 5120)). split; [reflexivity|]. rewrite nlen_fresh. lia. }
    destruct H1 as (t1 & E1 & H1). rewrite E1. cbn [bbind].
    destruct (put_end t1 l _ d H1 ltac:(lia)) as (t2 & E2 & H2). rewrite E2. cbn [bbind].
    eexists. split; [reflexivity|]. unfold zinv. cbn [zb_size zb_alloc zb_mem]. rewrite nlen_app.
    repeat split; try lia. replace (nlen l + nlen d + 5120 - (nlen l + nlen d)) with (nlen d + 5120 - nlen d) by lia. exact H2.
Qed.

Lemma zb_contents_ok b l : zinv b l -> zb_contents b = BOk l.
Proof.
  intros (Hs & Ha & Hm). unfold zb_contents, zb_read. rewrite Hs. destruct (zb_mem b) as [m|]; cbn [mem_of].
  - rewrite (get_all m l _ Hm). cbn [bbind]. apply defined_map.
  - destruct Hm as [-> _]. reflexivity.
Qed.

Lemma zb_read_ok b l p n : zinv b l -> p + n <= nlen l -> zb_read p n b = BOk (slice p n l).
Proof.
  intros (Hs & Ha & Hm) Hp. unfold zb_read. destruct (zb_mem b) as [m|]; cbn [mem_of].
  - destruct Hm as (rest & -> & Hk). unfold get. rewrite nlen_app, nlen_map.
    replace (p + n <=? nlen l + nlen rest) with true by lia. cbn [bbind].
    rewrite slice_app_ll by (rewrite nlen_map; exact Hp). unfold slice. rewrite skipn_map, firstn_map. apply defined_map.
  - destruct Hm as [-> _]. rewrite nlen_nil in Hp. assert (p = 0) by lia. assert (n = 0) by lia. subst. reflexivity.
Qed.

(** ** CZIPFileIOBufferImpl *)
Definition ioinv (b : iobuf) (l : option (list N)) : Prop :=
  match l, io_mem b with
  | None, None => io_size b = 0
  | Some l, Some m => io_size b = nlen l /\ holds m l 1
  | _, _ => False
  end.

Lemma io_set_ok b d : nlen d + 1 < two64 -> exists b', io_set d b = BOk b' /\ ioinv b' (Some d).
Proof.
  intros H. unfold io_set. rewrite u64_small by lia.
  destruct (put0_fresh d (nlen d + 1) ltac:(lia)) as (m & E & Hm). rewrite E. cbn [bbind].
  eexists. split; [reflexivity|]. unfold ioinv. cbn [io_mem io_size]. split; [reflexivity|].
  replace 1 with (nlen d + 1 - nlen d) by lia. exact Hm.
Qed.

Lemma io_append_ok b l d : ioinv b l -> nlen (match l with Some x => x | None => [] end) + nlen d + 1 < two64 ->
  exists b', io_append d b = BOk b' /\ ioinv b' (Some (match l with Some x => x | None => [] end ++ d)).
Proof.
  intros Hi Hb. unfold io_append. destruct l as [l|]; unfold ioinv in Hi; destruct (io_mem b) as [m|]; try contradiction.
  - destruct Hi as [Hs Hm]. rewrite Hs. rewrite (u64_small (nlen l + nlen d + 1)) by lia.
    rewrite (get_all m l _ Hm). cbn [bbind].
    destruct (put0_fresh l (nlen l + nlen d + 1) ltac:(lia)) as (t1 & E1 & H1). rewrite E1. cbn [bbind].
    destruct (put_end t1 l _ d H1 ltac:(lia)) as (t2 & E2 & H2). rewrite E2. cbn [bbind].
    rewrite (u64_small (nlen l + nlen d)) by lia. rewrite (u64_small (nlen l + nlen d + 1)) by lia.
    destruct H2 as (rest & -> & Hr).
    assert (Hlen : nlen (map Some (l ++ d) ++ rest) = nlen l + nlen d + 1) by (rewrite nlen_app, nlen_map, nlen_app; lia).
    unfold get. rewrite Hlen. replace (0 + (nlen l + nlen d + 1) <=? nlen l + nlen d + 1) with true by lia. cbn [bbind].
    replace (slice 0 (nlen l + nlen d + 1) (map Some (l ++ d) ++ rest)) with (map Some (l ++ d) ++ rest)
      by (rewrite <- Hlen; symmetry; apply slice_all).
    unfold put. rewrite nlen_fresh, Hlen.
    replace (0 + (nlen l + nlen d + 1) <=? nlen l + nlen d + 1) with true by lia. cbn [bbind].
    eexists. split; [reflexivity|]. unfold ioinv. cbn [io_mem io_size]. split; [rewrite nlen_app; reflexivity|].
    exists rest. split; [|lia]. cbn [N.to_nat firstn app]. rewrite skipn_all2; [apply app_nil_r|].
    unfold fresh. rewrite repeat_length. lia.
  - rewrite nlen_nil in Hb. cbn [app]. apply io_set_ok. lia.
Qed.

Lemma io_copy_ok b l n : ioinv b l ->
  io_copy n b = BOk (match l with None => None | Some l => Some (firstn (N.to_nat n) l) end).
Proof.
  intros Hi. unfold io_copy. destruct l as [l|]; unfold ioinv in Hi; destruct (io_mem b) as [m|]; try contradiction; [|reflexivity].
  destruct Hi as [Hs Hm]. rewrite Hs. destruct (nlen l <=? n) eqn:C.
  - rewrite (get_all m l _ Hm). cbn [bbind]. rewrite defined_map. cbn [bbind]. do 2 f_equal.
    symmetry. apply firstn_all2. unfold nlen in C. lia.
  - rewrite (get_prefix m l _ _ Hm) by lia. cbn [bbind]. rewrite defined_map. reflexivity.
Qed.
