(** Lemmas about the packet model. *)
From Coq Require Import List NArith ZArith Lia Bool.
From Coq Require Import ZifyN ZifyNat ZifyBool.
From Verif Require Import Bytes BytesProofs PacketModel.
Import ListNotations.
Open Scope N_scope.
Ltac Zify.zify_post_hook ::= Z.div_mod_to_equations.

Lemma Ok_inj {A} (a b : A) : Ok a = Ok b -> a = b.
Proof. intros H. congruence. Qed.

(** ** blocks *)
Lemma blk_write_ok b off l : off + nlen l <= bsize b -> exists b', blk_write b off l = Ok b' /\ bsize b' = bsize b.
Proof.
  intros H. unfold blk_write. destruct (N.leb_spec (off + nlen l) (bsize b)) as [_|C]; [|lia].
  eexists; split; [reflexivity|reflexivity].
Qed.

Lemma blk_write_size b off l b' : blk_write b off l = Ok b' -> bsize b' = bsize b.
Proof. unfold blk_write. destruct (_ <=? _); [|discriminate]. intros E; inversion E; reflexivity. Qed.

Lemma blk_write_bound b off l b' : blk_write b off l = Ok b' -> off + nlen l <= bsize b.
Proof. unfold blk_write. destruct (N.leb_spec (off + nlen l) (bsize b)); [lia|discriminate]. Qed.

Lemma blk_write_oob b off l : bsize b < off + nlen l -> blk_write b off l = OutOfBounds.
Proof. intros H. unfold blk_write. destruct (N.leb_spec (off + nlen l) (bsize b)); [lia|reflexivity]. Qed.

Lemma blk_write_get_out b off l b' i : blk_write b off l = Ok b' ->
  i < off \/ off + nlen l <= i -> bget b' i = bget b i.
Proof.
  unfold blk_write. destruct (_ <=? _); [|discriminate]. intros E H; inversion E; subst; cbn [bget].
  destruct ((off <=? i) && (i <? off + nlen l)) eqn:C; [lia|reflexivity].
Qed.

Lemma blk_write_get_in b off l b' i : blk_write b off l = Ok b' ->
  off <= i < off + nlen l -> bget b' i = nth_error l (N.to_nat (i - off)).
Proof.
  unfold blk_write. destruct (_ <=? _); [|discriminate]. intros E H; inversion E; subst; cbn [bget].
  destruct ((off <=? i) && (i <? off + nlen l)) eqn:C; [reflexivity|lia].
Qed.

Lemma blk_cells_ext b b' off n :
  (forall i, off <= i < off + N.of_nat n -> bget b i = bget b' i) -> blk_cells b off n = blk_cells b' off n.
Proof.
  intros H. unfold blk_cells. apply map_ext_in. intros k Hk. apply in_seq in Hk. apply H. lia.
Qed.

Lemma map_nth_error_seq {A} (l pre : list A) :
  map (fun k => nth_error (pre ++ l) (length pre + k)) (seq 0 (length l)) = map Some l.
Proof.
  revert pre; induction l as [|x l IH]; intros pre; cbn [length seq map]; [reflexivity|].
  rewrite Nat.add_0_r, nth_error_app2, Nat.sub_diag by lia. cbn [nth_error]. f_equal.
  rewrite <- seq_shift, map_map. rewrite <- (IH (pre ++ [x])). apply map_ext. intros k.
  rewrite <- app_assoc, app_length. cbn [app length]. f_equal. lia.
Qed.

Lemma blk_cells_write b off pre m post b' :
  blk_write b off (pre ++ m ++ post) = Ok b' ->
  blk_cells b' (off + nlen pre) (length m) = map Some m.
Proof.
  intros W. unfold blk_cells. rewrite <- (map_nth_error_seq m pre). apply map_ext_in.
  intros k Hk. apply in_seq in Hk.
  rewrite (blk_write_get_in _ _ _ _ _ W).
  - replace (N.to_nat (off + nlen pre + N.of_nat k - off)) with (length pre + k)%nat by (unfold nlen; lia).
    rewrite app_assoc, nth_error_app1; [reflexivity|]. rewrite app_length. lia.
  - rewrite !nlen_app. unfold nlen. lia.
Qed.

Lemma blk_read_write b off pre m post b' :
  blk_write b off (pre ++ m ++ post) = Ok b' ->
  blk_read b' (off + nlen pre) (length m) = Ok (map Some m).
Proof.
  intros W. unfold blk_read. pose proof (blk_write_bound _ _ _ _ W) as B.
  rewrite (blk_write_size _ _ _ _ W). rewrite !nlen_app in B.
  destruct (N.leb_spec (off + nlen pre + N.of_nat (length m)) (bsize b)) as [_|C].
  - f_equal. eapply blk_cells_write; exact W.
  - unfold nlen in *. lia.
Qed.

Lemma blk_read_write_all b off m b' :
  blk_write b off m = Ok b' -> blk_read b' off (length m) = Ok (map Some m).
Proof.
  intros W. pose proof (blk_read_write b off [] m [] b') as H. rewrite nlen_nil, N.add_0_r, app_nil_r in H.
  apply H. exact W.
Qed.

Lemma blk_read_frame b off l b' o n :
  blk_write b off l = Ok b' -> (o + N.of_nat n <= off \/ off + nlen l <= o) ->
  blk_read b' o n = blk_read b o n.
Proof.
  intros W H. unfold blk_read. rewrite (blk_write_size _ _ _ _ W).
  destruct (_ <=? _); [|reflexivity]. f_equal. apply blk_cells_ext. intros i Hi.
  eapply blk_write_get_out; [exact W|lia].
Qed.

Lemma all_some_map l : all_some (map Some l) = Some l.
Proof. induction l as [|x l IH]; cbn [map all_some]; [reflexivity|]. rewrite IH. reflexivity. Qed.

(** ** byte order *)
Lemma swap_image n v : le_bytes n (swap_endian n v) = be_bytes n v.
Proof.
  unfold swap_endian, be_bytes. pose proof (le_bytes_val (rev (le_bytes n v))) as H.
  rewrite rev_length, le_bytes_length in H. apply H. apply bytes_ok_rev, le_bytes_ok.
Qed.

Lemma swap_swap n v : v < 256 ^ N.of_nat n -> swap_endian n (swap_endian n v) = v.
Proof.
  intros H. unfold swap_endian at 1. rewrite swap_image. unfold be_bytes. rewrite rev_involutive.
  apply le_val_bytes. exact H.
Qed.

Lemma swap_le_val l : bytes_ok l -> swap_endian (length l) (le_val l) = be_val l.
Proof. intros H. unfold swap_endian, be_val. rewrite le_bytes_val by exact H. reflexivity. Qed.

Lemma fetch_ok b off l : bytes_ok l -> blk_read b off (length l) = Ok (map Some l) ->
  fetch b off (length l) = Ok (be_val l).
Proof.
  intros H R. unfold fetch. rewrite R. cbn [bind]. rewrite all_some_map, swap_le_val by exact H. reflexivity.
Qed.

(** The wire format as documented: flag, version, number, count, type as 32-bit and
    the body length as 64-bit big-endian integers. *)
Definition wire_header (fl ve nu co ty bo : N) : list N :=
  be_bytes 4 fl ++ be_bytes 4 ve ++ be_bytes 4 nu ++ be_bytes 4 co ++ be_bytes 4 ty ++ be_bytes 8 bo.

Lemma header_image_wire fl ve nu co ty bo : header_image fl ve nu co ty bo = wire_header fl ve nu co ty bo.
Proof. unfold header_image, wire_header. rewrite !swap_image. reflexivity. Qed.

Lemma wire_header_length fl ve nu co ty bo : length (wire_header fl ve nu co ty bo) = 28%nat.
Proof. unfold wire_header. rewrite !app_length, !be_bytes_length. reflexivity. Qed.

Lemma nlen_wire_header fl ve nu co ty bo : nlen (wire_header fl ve nu co ty bo) = 28.
Proof. unfold nlen. rewrite wire_header_length. reflexivity. Qed.

Definition fields_ok (ve nu co ty bo : N) : Prop :=
  ve < two32 /\ nu < two32 /\ co < two32 /\ ty < two32 /\ bo < two64.

(** ** growth *)
Lemma grow_to_noop d n : (n + 1) mod two64 <= dalloc d -> grow_to d n = Ok d.
Proof. intros H. unfold grow_to. destruct (N.ltb_spec (dalloc d) ((n + 1) mod two64)); [lia|reflexivity]. Qed.

(** The buffer of a packet that has been constructed but not grown since. *)
Definition prealloc : N := 31457281.
Record fresh_buf (d : dynbuf) : Prop := {
  fb_block : exists b, dbuf d = Some b /\ bsize b = prealloc;
  fb_size  : dsize d = 31457280;
  fb_alloc : dalloc d = prealloc }.

Lemma packet_new_fresh v : exists p, packet_new v = Ok p /\ fresh_buf (pdata p) /\
  pflag p = pkg_flag /\ pversion p = v /\ pnumber p = 0 /\ pcount p = 0 /\ ptype p = 0 /\ pbody p = 0.
Proof.
  unfold packet_new, grow_to. cbn [dalloc dyn_empty dbuf dsize copy_old bind].
  eexists. split; [reflexivity|]. cbn. repeat split. eexists; split; reflexivity.
Qed.

Lemma grow_fresh d n : fresh_buf d -> n + 1 <= max_alloc ->
  exists d' b', grow_to d n = Ok d' /\ dbuf d' = Some b' /\
    bsize b' = N.max prealloc (n + 1) /\ dalloc d' = bsize b' /\
    (forall i, i < 31457280 -> forall b, dbuf d = Some b -> bget b' i = bget b i).
Proof.
  intros [[b [Hb Hs]] Hz Ha] Hn. unfold grow_to. rewrite Ha.
  assert (Hm : (n + 1) mod two64 = n + 1) by (apply N.mod_small; unfold two64, max_alloc in *; lia).
  rewrite Hm. destruct (N.ltb_spec prealloc (n + 1)) as [L|L].
  - destruct (N.ltb_spec max_alloc (n + 1)) as [C|_]; [lia|]. rewrite Hb. cbn [copy_old].
    unfold blk_copy. rewrite Hz. cbn [bsize new_block]. rewrite Hs.
    destruct ((31457280 <=? n + 1) && (31457280 <=? prealloc)) eqn:C; [|unfold prealloc in *; lia].
    cbn [bind]. eexists _, _. split; [reflexivity|]. split; [reflexivity|]. cbn [bsize dalloc bget].
    split; [lia|]. split; [reflexivity|]. intros i Hi b0 E. inversion E; subst b0.
    destruct (N.ltb_spec i 31457280); [reflexivity|lia].
  - exists d, b. split; [reflexivity|]. split; [exact Hb|]. split; [lia|]. split; [congruence|].
    intros i _ b0 E. rewrite Hb in E. inversion E; reflexivity.
Qed.

(** Writing keeps the shape of a fresh buffer. *)
Lemma fresh_set_block d b : fresh_buf d -> bsize b = prealloc -> fresh_buf (set_block d b).
Proof. intros [_ Hz Ha] H. constructor; cbn; [eexists; split; [reflexivity|exact H]| exact Hz | exact Ha]. Qed.

(** ** encode / decode *)
Lemma encode_header_image p b : dbuf (pdata p) = Some b -> 28 <= bsize b ->
  pflag p < two32 -> fields_ok (pversion p) (pnumber p) (pcount p) (ptype p) (pbody p) ->
  exists p' b', encode_header p = Ok p' /\ dbuf (pdata p') = Some b' /\
    blk_write b 0 (wire_header (pflag p) (pversion p) (pnumber p) (pcount p) (ptype p) (pbody p)) = Ok b' /\
    pflag p' = pflag p /\ pversion p' = pversion p /\ pnumber p' = pnumber p /\
    pcount p' = pcount p /\ ptype p' = ptype p /\ pbody p' = pbody p /\
    dsize (pdata p') = dsize (pdata p) /\ dalloc (pdata p') = dalloc (pdata p).
Proof.
  intros Hb H28 Hf (Hv & Hn & Hc & Ht & Hbo). unfold encode_header, with_block. rewrite Hb, header_image_wire.
  destruct (blk_write_ok b 0 (wire_header (pflag p) (pversion p) (pnumber p) (pcount p) (ptype p) (pbody p))) as [b' [W S]].
  { rewrite nlen_wire_header. lia. }
  rewrite W. cbn [bind]. eexists _, b'. split; [reflexivity|]. cbn -[swap_endian].
  rewrite !(swap_swap 4), (swap_swap 8) by (rewrite ?pow256_4, ?pow256_8; assumption).
  repeat split; reflexivity || assumption.
Qed.

Lemma wire_fetches b b' fl ve nu co ty bo :
  blk_write b 0 (wire_header fl ve nu co ty bo) = Ok b' ->
  fl < two32 -> fields_ok ve nu co ty bo ->
  fetch b' 0 4 = Ok fl /\ fetch b' 4 4 = Ok ve /\ fetch b' 8 4 = Ok nu /\ fetch b' 12 4 = Ok co /\
  fetch b' 16 4 = Ok ty /\ fetch b' 20 8 = Ok bo.
Proof.
  intros W Hf (Hv & Hn & Hc & Ht & Hbo). unfold wire_header in W.
  assert (G : forall n v pre post, v < 256 ^ N.of_nat n ->
    blk_write b 0 (pre ++ be_bytes n v ++ post) = Ok b' -> fetch b' (nlen pre) n = Ok v).
  { intros n v pre post Hlt HW. pose proof (fetch_ok b' (nlen pre) (be_bytes n v) (be_bytes_ok n v)) as F.
    rewrite be_bytes_length in F. rewrite F.
    - rewrite be_val_bytes by exact Hlt. reflexivity.
    - pose proof (blk_read_write b 0 pre (be_bytes n v) post b' HW) as R.
      rewrite be_bytes_length, N.add_0_l in R. exact R. }
  repeat split.
  - apply (G 4%nat fl [] _ Hf W).
  - apply (G 4%nat ve (be_bytes 4 fl) _ Hv W).
  - apply (G 4%nat nu (be_bytes 4 fl ++ be_bytes 4 ve) (be_bytes 4 co ++ be_bytes 4 ty ++ be_bytes 8 bo) Hn).
    rewrite <- !app_assoc. exact W.
  - apply (G 4%nat co (be_bytes 4 fl ++ be_bytes 4 ve ++ be_bytes 4 nu) (be_bytes 4 ty ++ be_bytes 8 bo) Hc).
    rewrite <- !app_assoc. exact W.
  - apply (G 4%nat ty (be_bytes 4 fl ++ be_bytes 4 ve ++ be_bytes 4 nu ++ be_bytes 4 co) (be_bytes 8 bo) Ht).
    rewrite <- !app_assoc. exact W.
  - apply (G 8%nat bo (be_bytes 4 fl ++ be_bytes 4 ve ++ be_bytes 4 nu ++ be_bytes 4 co ++ be_bytes 4 ty) [] Hbo).
    rewrite <- !app_assoc. rewrite app_nil_r. exact W.
Qed.

(** Decoding 28 received header bytes: either the growth fails, or the fields are
    exactly those on the wire. *)
Lemma decode_wire p b b0 fl ve nu co ty bo :
  dbuf (pdata p) = Some b ->
  blk_write b0 0 (wire_header fl ve nu co ty bo) = Ok b -> fl < two32 -> fields_ok ve nu co ty bo ->
  decode_header p =
    if fl =? pkg_flag
    then bind (grow_to (pdata p) bo) (fun d => Ok (true, set_data (set_fields p fl ve nu co ty bo) d))
    else Ok (false, set_fields p fl (pversion p) (pnumber p) (pcount p) (ptype p) (pbody p)).
Proof.
  intros Hb W Hf Hok. destruct (wire_fetches _ _ _ _ _ _ _ _ W Hf Hok) as (F0 & F1 & F2 & F3 & F4 & F5).
  unfold decode_header, with_block. rewrite Hb, F0. cbn [bind].
  destruct (fl =? pkg_flag) eqn:E; cbn [negb]; [|reflexivity].
  rewrite F1; cbn [bind]. rewrite F2; cbn [bind]. rewrite F3; cbn [bind]. rewrite F4; cbn [bind].
  rewrite F5; cbn [bind]. reflexivity.
Qed.

(** Every 28-byte block is the wire image of some field values. *)
Lemma take_be n h : bytes_ok h -> (n <= length h)%nat ->
  exists v rest, h = be_bytes n v ++ rest /\ v < 256 ^ N.of_nat n /\ bytes_ok rest /\
                 length rest = (length h - n)%nat /\ v = be_val (firstn n h).
Proof.
  intros Hok Hl. exists (be_val (firstn n h)), (skipn n h).
  pose proof (proj1 (bytes_ok_app (firstn n h) (skipn n h))) as Q.
  rewrite firstn_skipn in Q. destruct (Q Hok) as [Q1 Q2].
  assert (L : length (firstn n h) = n) by (rewrite firstn_length; lia).
  repeat split.
  - rewrite <- L at 1. rewrite be_bytes_val by exact Q1. symmetry. apply firstn_skipn.
  - pose proof (be_val_bound _ Q1) as B. unfold nlen in B. rewrite L in B. exact B.
  - exact Q2.
  - rewrite skipn_length. reflexivity.
Qed.

Lemma split_header h : bytes_ok h -> length h = 28%nat ->
  exists fl ve nu co ty bo, h = wire_header fl ve nu co ty bo /\ fl < two32 /\ fields_ok ve nu co ty bo
    /\ fl = be_val (firstn 4 h).
Proof.
  intros Hok Hl.
  destruct (take_be 4 h Hok) as (fl & r0 & E0 & B0 & K0 & L0 & V0); [lia|].
  destruct (take_be 4 r0 K0) as (ve & r1 & E1 & B1 & K1 & L1 & _); [lia|].
  destruct (take_be 4 r1 K1) as (nu & r2 & E2 & B2 & K2 & L2 & _); [lia|].
  destruct (take_be 4 r2 K2) as (co & r3 & E3 & B3 & K3 & L3 & _); [lia|].
  destruct (take_be 4 r3 K3) as (ty & r4 & E4 & B4 & K4 & L4 & _); [lia|].
  destruct (take_be 8 r4 K4) as (bo & r5 & E5 & B5 & K5 & L5 & _); [lia|].
  assert (r5 = []) by (destruct r5; [reflexivity|cbn [length] in L5; lia]). subst r5. rewrite app_nil_r in E5.
  exists fl, ve, nu, co, ty, bo. repeat split; try assumption.
  unfold wire_header. congruence.
Qed.

(** ** SetBody *)
Lemma set_body_fresh p body : fresh_buf (pdata p) -> header_len + nlen body + 1 <= max_alloc ->
  exists p' b', set_body p body = Ok p' /\ dbuf (pdata p') = Some b' /\
    bsize b' = N.max prealloc (29 + nlen body) /\ dalloc (pdata p') = bsize b' /\
    pflag p' = pflag p /\ pversion p' = pversion p /\ pnumber p' = pnumber p /\ pcount p' = pcount p /\
    ptype p' = ptype p /\ pbody p' = nlen body /\
    blk_read b' header_len (length body) = Ok (map Some body).
Proof.
  intros F H. unfold set_body.
  assert (Hm : (header_len + nlen body) mod two64 = header_len + nlen body).
  { apply N.mod_small. unfold max_alloc, two64 in *. lia. }
  rewrite Hm. destruct (grow_fresh (pdata p) (header_len + nlen body) F H) as (d & b & G & Hb & Hs & Ha & _).
  rewrite G. cbn [bind]. unfold with_block. rewrite Hb.
  destruct (blk_write_ok b header_len body) as [b' [W S]].
  { rewrite Hs. unfold header_len. lia. }
  rewrite W. cbn [bind]. eexists _, b'. split; [reflexivity|].
  cbn [pdata set_data set_block set_fields dbuf dalloc pflag pversion pnumber pcount ptype pbody].
  split; [reflexivity|]. split; [rewrite S, Hs; unfold header_len; lia|]. split; [congruence|].
  repeat split. eapply blk_read_write_all. exact W.
Qed.

Lemma get_body_read p b : dbuf (pdata p) = Some b -> get_body p = blk_read b header_len (N.to_nat (pbody p)).
Proof. intros H. unfold get_body, with_block. rewrite H. reflexivity. Qed.

Lemma set_body_get_body p body : fresh_buf (pdata p) -> header_len + nlen body + 1 <= max_alloc ->
  exists p', set_body p body = Ok p' /\ get_body p' = Ok (map Some body) /\
             packet_length p' = header_len + nlen body.
Proof.
  intros F H. destruct (set_body_fresh p body F H) as (p' & b' & E & Hb & _ & _ & _ & _ & _ & _ & _ & Hl & R).
  exists p'. split; [exact E|]. split.
  - rewrite (get_body_read _ _ Hb), Hl. unfold nlen. rewrite Nat2N.id. exact R.
  - unfold packet_length. rewrite Hl. apply N.mod_small. unfold max_alloc, two64 in *. lia.
Qed.

Lemma seq_from n : forall k s, seq (s + n) k = map (fun x => (x + n)%nat) (seq s k).
Proof. induction k as [|k IH]; intros s; cbn [seq map]; [reflexivity|]. f_equal. apply (IH (S s)). Qed.

Lemma blk_cells_app b off n m : blk_cells b off (n + m) = blk_cells b off n ++ blk_cells b (off + N.of_nat n) m.
Proof.
  unfold blk_cells. rewrite seq_app, map_app. f_equal. rewrite seq_from, map_map.
  apply map_ext. intros k. f_equal. lia.
Qed.

(** Encoding after SetBody: the wire bytes are header ++ body. *)
Lemma set_encode_wire p body : fresh_buf (pdata p) -> header_len + nlen body + 1 <= max_alloc ->
  pflag p = pkg_flag -> fields_ok (pversion p) (pnumber p) (pcount p) (ptype p) (nlen body) ->
  exists p1 p2, set_body p body = Ok p1 /\ encode_header p1 = Ok p2 /\
    get_body p2 = Ok (map Some body) /\
    wire p2 = Ok (map Some (wire_header pkg_flag (pversion p) (pnumber p) (pcount p) (ptype p) (nlen body) ++ body)).
Proof.
  intros F H Hf Hok. destruct (set_body_fresh p body F H) as (p1 & b1 & E1 & Hb1 & Hs1 & Ha1 & Hfl & Hv & Hn & Hc & Ht & Hl & R).
  assert (H28 : 28 <= bsize b1) by (rewrite Hs1; unfold prealloc; lia).
  destruct (encode_header_image p1 b1 Hb1 H28) as (p2 & b2 & E2 & Hb2 & W & Hfl2 & Hv2 & Hn2 & Hc2 & Ht2 & Hl2 & _ & _).
  { rewrite Hfl, Hf. reflexivity. }
  { rewrite Hv, Hn, Hc, Ht, Hl. exact Hok. }
  exists p1, p2. split; [exact E1|]. split; [exact E2|].
  rewrite Hfl, Hf, Hv, Hn, Hc, Ht, Hl in W.
  assert (RB : blk_read b2 header_len (length body) = Ok (map Some body)).
  { rewrite <- R. eapply blk_read_frame; [exact W|]. right. rewrite nlen_wire_header. unfold header_len. lia. }
  split.
  - rewrite (get_body_read _ _ Hb2), Hl2, Hl. unfold nlen. rewrite Nat2N.id. exact RB.
  - unfold wire, with_block. rewrite Hb2. unfold packet_length. rewrite Hl2, Hl.
    rewrite N.mod_small by (unfold max_alloc, two64 in *; lia).
    unfold blk_read in *. rewrite (blk_write_size _ _ _ _ W) in *.
    destruct (header_len + N.of_nat (length body) <=? bsize b1) eqn:C1; [|discriminate].
    destruct (0 + N.of_nat (N.to_nat (header_len + nlen body)) <=? bsize b1) eqn:C2;
      [|unfold header_len, nlen in *; lia].
    f_equal. pose proof (Ok_inj _ _ RB) as RB'.
    replace (N.to_nat (header_len + nlen body)) with (28 + length body)%nat by (unfold nlen, header_len; lia).
    rewrite blk_cells_app, map_app. f_equal.
    + pose proof (blk_read_write_all _ _ _ _ W) as Q. unfold blk_read in Q. rewrite wire_header_length in Q.
      destruct (0 + N.of_nat 28 <=? bsize b2); [|discriminate]. apply Ok_inj in Q. exact Q.
    + exact RB'.
Qed.

(** ** Receiving *)
Definition recv_limit : N := 31457253.

Lemma receive_cases p fl ve nu co ty bo body :
  fresh_buf (pdata p) -> fl < two32 -> fields_ok ve nu co ty bo -> nlen body = bo ->
  receive p (wire_header fl ve nu co ty bo) body =
    (if fl =? pkg_flag then
       if bo =? two64 - 1 then OutOfBounds
       else if max_alloc <=? bo then Throws
       else if recv_limit <? bo then OutOfBounds
       else receive p (wire_header fl ve nu co ty bo) body
     else Ok None) /\
  (fl = pkg_flag -> bo <= recv_limit -> exists q,
     receive p (wire_header fl ve nu co ty bo) body = Ok (Some q) /\
     pversion q = ve /\ pnumber q = nu /\ pcount q = co /\ ptype q = ty /\ pbody q = bo /\
     get_body q = Ok (map Some body)).
Proof.
  intros F Hf Hok Hbo. destruct (fb_block _ F) as [b [Hb Hs]].
  destruct (blk_write_ok b 0 (wire_header fl ve nu co ty bo)) as [b1 [W S1]].
  { rewrite nlen_wire_header, Hs. unfold prealloc. lia. }
  set (p1 := set_data p (set_block (pdata p) b1)).
  assert (E1 : recv_header p (wire_header fl ve nu co ty bo) = Ok p1).
  { unfold recv_header, with_block. rewrite Hb, W. reflexivity. }
  assert (F1 : fresh_buf (pdata p1)) by (apply fresh_set_block; [exact F|congruence]).
  assert (Hb1 : dbuf (pdata p1) = Some b1) by reflexivity.
  unfold receive. rewrite E1. cbn [bind]. rewrite (decode_wire p1 b1 b _ _ _ _ _ _ Hb1 W Hf Hok).
  destruct (fl =? pkg_flag) eqn:Ef; [|cbn [bind fst]; split; [reflexivity|intros ->; apply N.eqb_neq in Ef; congruence]].
  assert (Bo : bo < two64) by (destruct Hok as (_ & _ & _ & _ & Q); exact Q).
  destruct (N.eqb_spec bo (two64 - 1)) as [Emax|Nmax].
  { split; [|intros _ C; subst bo; unfold recv_limit, two64 in *; lia].
    rewrite grow_to_noop.
    2:{ rewrite Emax. change ((two64 - 1 + 1) mod two64) with 0. lia. }
    cbn [bind fst snd]. unfold recv_body, with_block, set_data. cbn [pdata]. rewrite Hb1.
    rewrite blk_write_oob; [reflexivity|]. rewrite S1, Hs, Hbo, Emax. unfold prealloc, two64, header_len. lia. }
  destruct (N.leb_spec max_alloc bo) as [Lm|Lm].
  { split; [|intros _ C; unfold recv_limit, max_alloc in *; lia].
    unfold grow_to. rewrite (fb_alloc _ F1).
    rewrite (N.mod_small (bo + 1)) by (unfold two64 in *; lia).
    destruct (N.ltb_spec prealloc (bo + 1)) as [_|C]; [|unfold prealloc, max_alloc in *; lia].
    destruct (N.ltb_spec max_alloc (bo + 1)) as [_|C]; [|lia]. reflexivity. }
  destruct (grow_fresh (pdata p1) bo F1) as (d & b2 & G & Hd & Hs2 & Ha2 & Hget); [lia|].
  rewrite G. cbn [bind fst snd]. unfold recv_body at 1 2 3, with_block. cbn [pdata set_data set_fields]. rewrite Hd.
  destruct (N.ltb_spec recv_limit bo) as [L|L].
  { split; [|intros _ C; unfold recv_limit in *; lia].
    rewrite blk_write_oob; [reflexivity|]. rewrite Hs2, Hbo. unfold prealloc, header_len, recv_limit in *. lia. }
  split; [reflexivity|]. intros _ _.
  destruct (blk_write_ok b2 header_len body) as [b3 [W3 S3]].
  { rewrite Hs2, Hbo. unfold prealloc, header_len, recv_limit in *. lia. }
  rewrite W3. cbn [bind]. eexists. split; [reflexivity|].
  cbn [pdata set_data set_block set_fields dbuf dalloc pflag pversion pnumber pcount ptype pbody]. repeat split.
  unfold get_body, with_block. cbn [pdata set_data set_block set_fields dbuf pbody]. rewrite <- Hbo. unfold nlen. rewrite Nat2N.id.
  eapply blk_read_write_all. exact W3.
Qed.

(** ** Histories without pre-growth *)
Inductive dop := DAppend (l : list N) | DFrom (l : list N).
Definition dstep (d : dynbuf) (o : dop) : res dynbuf :=
  match o with DAppend l => append d l | DFrom l => from_buffer d l end.
Fixpoint drun (d : dynbuf) (ops : list dop) : res dynbuf :=
  match ops with [] => Ok d | o :: r => bind (dstep d o) (fun d' => drun d' r) end.
(** What the buffer should contain. *)
Definition dspec (acc : list N) (o : dop) : list N :=
  match o with DAppend l => acc ++ l | DFrom [] => acc | DFrom l => l end.
Definition dcost (o : dop) : N := match o with DAppend l => nlen l | DFrom l => nlen l end.
Fixpoint dtotal (ops : list dop) : N := match ops with [] => 0 | o :: r => dcost o + dtotal r end.

Definition holds (d : dynbuf) (acc : list N) : Prop :=
  dsize d = nlen acc /\ nlen acc <= dalloc d /\
  match dbuf d with
  | None => acc = [] /\ dalloc d = 0
  | Some b => bsize b = dalloc d /\ blk_read b 0 (length acc) = Ok (map Some acc)
  end.

Lemma blk_read_cells b off n : off + N.of_nat n <= bsize b -> blk_read b off n = Ok (blk_cells b off n).
Proof. intros H. unfold blk_read. destruct (N.leb_spec (off + N.of_nat n) (bsize b)); [reflexivity|lia]. Qed.

Lemma append_holds d acc l : holds d acc -> nlen acc + nlen l + 5120 <= max_alloc ->
  exists d', append d l = Ok d' /\ holds d' (acc ++ l).
Proof.
  intros (Hs & Ha & Hb) HM. unfold append. destruct (N.eqb_spec (nlen l) 0) as [E|NE].
  { apply nlen_0 in E. subst l. rewrite app_nil_r. exists d. split; [reflexivity|]. repeat split; assumption. }
  rewrite Hs. rewrite (N.mod_small (nlen acc + nlen l)) by (unfold two64, max_alloc in *; lia).
  destruct (N.leb_spec (nlen acc + nlen l) (dalloc d)) as [L|L].
  - destruct (dbuf d) as [b|] eqn:Eb; [|destruct Hb; lia]. destruct Hb as [Hsz HR].
    destruct (blk_write_ok b (nlen acc) l) as [b' [W S]]; [lia|]. rewrite W. cbn [bind].
    eexists. split; [reflexivity|]. unfold holds. cbn [dsize dalloc dbuf]. rewrite nlen_app.
    repeat split; try lia; try congruence.
    rewrite blk_read_cells by (rewrite S, Hsz, app_length; unfold nlen in *; lia).
    rewrite app_length, blk_cells_app, map_app. f_equal. f_equal.
    + assert (Q : blk_read b' 0 (length acc) = Ok (map Some acc)).
      { rewrite <- HR. eapply blk_read_frame; [exact W|]. left. unfold nlen. lia. }
      rewrite blk_read_cells in Q by (rewrite S, Hsz; unfold nlen in *; lia). apply Ok_inj in Q. exact Q.
    + pose proof (blk_read_write_all _ _ _ _ W) as Q. rewrite blk_read_cells in Q by (rewrite S, Hsz; unfold nlen in *; lia).
      apply Ok_inj in Q. rewrite N.add_0_l. exact Q.
  - rewrite (N.mod_small (nlen acc + nlen l + 5120)) by (unfold two64, max_alloc in *; lia).
    set (al := nlen acc + nlen l + 5120) in *. destruct (N.ltb_spec max_alloc al) as [C|_]; [lia|].
    assert (T : exists t, copy_old (dbuf d) (new_block al) (nlen acc) = Ok t /\ bsize t = al /\
                          blk_cells t 0 (length acc) = map Some acc).
    { destruct (dbuf d) as [b|] eqn:Eb; cbn [copy_old].
      - destruct Hb as [Hsz HR]. unfold blk_copy. cbn [bsize new_block].
        destruct ((nlen acc <=? al) && (nlen acc <=? bsize b)) eqn:C; [|lia].
        eexists. split; [reflexivity|]. split; [reflexivity|].
        rewrite blk_read_cells in HR by (rewrite Hsz; unfold nlen in *; lia). apply Ok_inj in HR. rewrite <- HR.
        apply blk_cells_ext. intros i Hi. cbn [bget]. destruct (N.ltb_spec i (nlen acc)); [reflexivity|unfold nlen in *; lia].
      - destruct Hb as [-> _]. eexists. split; [reflexivity|]. split; reflexivity. }
    destruct T as (t & ET & ST & CT). rewrite ET. cbn [bind].
    destruct (blk_write_ok t (nlen acc) l) as [b' [W S]]; [lia|]. rewrite W. cbn [bind].
    eexists. split; [reflexivity|]. unfold holds. cbn [dsize dalloc dbuf]. rewrite nlen_app.
    repeat split; try lia; try congruence.
    rewrite blk_read_cells by (rewrite S, ST, app_length; unfold nlen in *; lia).
    rewrite app_length, blk_cells_app, map_app. f_equal. f_equal.
    + rewrite <- CT. apply blk_cells_ext. intros i Hi. eapply blk_write_get_out; [exact W|]. left. unfold nlen. lia.
    + pose proof (blk_read_write_all _ _ _ _ W) as Q. rewrite blk_read_cells in Q by (rewrite S, ST; unfold nlen in *; lia).
      apply Ok_inj in Q. rewrite N.add_0_l. exact Q.
Qed.

Lemma from_holds d acc l : holds d acc -> nlen l <= max_alloc ->
  exists d', from_buffer d l = Ok d' /\ holds d' (dspec acc (DFrom l)).
Proof.
  intros H HM. unfold from_buffer, dspec. destruct (N.eqb_spec (nlen l) 0) as [E|NE].
  { apply nlen_0 in E. subst l. exists d. split; [reflexivity|exact H]. }
  destruct (N.ltb_spec max_alloc (nlen l)) as [C|_]; [lia|].
  destruct (blk_write_ok (new_block (nlen l)) 0 l) as [b [W S]]; [cbn [bsize new_block]; lia|].
  rewrite W. cbn [bind]. eexists. split; [reflexivity|].
  destruct l as [|x l']; [rewrite nlen_nil in NE; lia|].
  unfold holds. cbn [dsize dalloc dbuf]. repeat split; try lia; try exact S.
  eapply blk_read_write_all. exact W.
Qed.

Lemma drun_holds ops : forall d acc, holds d acc -> nlen acc + dtotal ops + 5120 <= max_alloc ->
  exists d', drun d ops = Ok d' /\ holds d' (fold_left dspec ops acc).
Proof.
  induction ops as [|o ops IH]; intros d acc H HM; cbn [drun fold_left dtotal] in *.
  - exists d. split; [reflexivity|exact H].
  - assert (S : exists d', dstep d o = Ok d' /\ holds d' (dspec acc o) /\ nlen (dspec acc o) <= nlen acc + dcost o).
    { destruct o as [l|l]; cbn [dstep dcost] in *.
      - destruct (append_holds d acc l H) as (d' & E & H'); [lia|]. exists d'. split; [exact E|]. split; [exact H'|].
        cbn [dspec]. rewrite nlen_app. lia.
      - destruct (from_holds d acc l H) as (d' & E & H'); [unfold max_alloc in *; lia|]. exists d'. split; [exact E|]. split; [exact H'|].
        cbn [dspec]. destruct l; unfold nlen in *; cbn [length]; lia. }
    destruct S as (d' & E & H' & L). rewrite E. cbn [bind]. apply IH; [exact H'|lia].
Qed.

Lemma holds_empty : holds dyn_empty [].
Proof. repeat split; cbn; lia. Qed.

(** Two growths beyond the pre-allocation. *)
Lemma grow_twice d n m : fresh_buf d -> prealloc <= n -> n < m -> m < max_alloc ->
  bind (grow_to d n) (fun d' => grow_to d' m) = OutOfBounds.
Proof.
  intros [[b [Hb Hs]] Hz Ha] Hn Hm HM. unfold grow_to at 1. rewrite Ha.
  rewrite (N.mod_small (n + 1)) by (unfold two64, max_alloc in *; lia).
  destruct (N.ltb_spec prealloc (n + 1)) as [_|C]; [|lia].
  destruct (N.ltb_spec max_alloc (n + 1)) as [C|_]; [lia|].
  rewrite Hb, Hz. cbn [copy_old]. unfold blk_copy at 1. cbn [bsize new_block]. rewrite Hs.
  destruct ((31457280 <=? n + 1) && (31457280 <=? prealloc)) eqn:C; [|unfold prealloc in *; lia].
  cbn [bind]. unfold grow_to. cbn [dalloc dsize dbuf].
  rewrite (N.mod_small (m + 1)) by (unfold two64, max_alloc in *; lia).
  destruct (N.ltb_spec (n + 1) (m + 1)) as [_|C2]; [|lia].
  destruct (N.ltb_spec max_alloc (m + 1)) as [C3|_]; [lia|].
  cbn [copy_old]. unfold blk_copy. cbn [bsize new_block].
  rewrite (N.mod_small (31457280 + n)) by (unfold two64, max_alloc in *; lia).
  destruct ((31457280 + n <=? m + 1) && (31457280 + n <=? n + 1)) eqn:C4; [lia|]. reflexivity.
Qed.
