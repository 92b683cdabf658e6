(** * C112, C113, C114: files, their names and what is in them *)
From Coq Require Import String List NArith ZArith Lia Bool.
From Coq Require Import ZifyN ZifyNat ZifyBool.
From Verif Require Import Bytes Txt UtfSpec UtfModel UtfProofs StringModel StringSpec StringProofs StringProofs2 PathModel PathSpec PathProofs PathProofs2 PathProps ZipModel ZipSpec ZipProofs BytesProofs.
From Verif Require Import MvrModel RawModel.
From Verif Require MvrProps.
Import ListNotations.
Open Scope N_scope.
Open Scope list_scope.
Ltac Zify.zify_post_hook ::= idtac.
Notation name := MvrProps.name.
Notation path := MvrProps.path.
Notation content_put := MvrProps.content_put.

(** ** C112: reading and writing *)
(** The byte at a place of a file; [None] behind its end. *)
Definition byte (x : list N) (i : nat) : option N := nth_error x i.
(** [y] is [x] after [data] was written at the place [n]: those bytes, everything else as before, and 0 in a gap. *)
Definition is_written (x : list N) (n : nat) (data y : list N) : Prop :=
  forall i, byte y i =
    if (n <=? i)%nat && (i <? n + List.length data)%nat then byte data (i - n)
    else match byte x i with
         | Some b => Some b
         | None => if (i <? n)%nat && negb (List.length data =? 0)%nat then Some 0 else None
         end.
(** [y] is what is in [x] from the place [n] on, at most [k] bytes. *)
Definition is_part (x : list N) (n k : nat) (y : list N) : Prop := forall i, byte y i = if (i <? k)%nat then byte x (n + i) else None.
Lemma nth_repeat (b : N) k i : nth_error (repeat b k) i = if (i <? k)%nat then Some b else None.
Proof. revert i. induction k as [|k IH]; intros [|i]; try reflexivity. cbn [repeat nth_error]. rewrite IH. destruct (i <? k)%nat eqn:E, (S i <? S k)%nat eqn:F; lia || reflexivity. Qed.
Lemma nth_firstn {A} (l : list A) k i : nth_error (firstn k l) i = if (i <? k)%nat then nth_error l i else None.
Proof. revert k i. induction l as [|a l IH]; intros [|k] [|i]; cbn [firstn nth_error]; try reflexivity; [now destruct (S i <? S k)%nat|]. rewrite IH. destruct (i <? k)%nat eqn:E, (S i <? S k)%nat eqn:F; lia || reflexivity. Qed.
Lemma nth_skipn {A} (l : list A) k i : nth_error (skipn k l) i = nth_error l (k + i).
Proof. revert l. induction k as [|k IH]; intros l; [reflexivity|]. destruct l as [|a l]; cbn [skipn nth_error Nat.add]; [now destruct i|]. apply IH. Qed.
Lemma put_at_ok x n data : is_written x n data (put_at x n data).
Proof.
  intros i. unfold byte, put_at. destruct data as [|c data0].
  - cbn [List.length]. rewrite Nat.add_0_r. replace ((n <=? i)%nat && (i <? n)%nat) with false by lia. rewrite andb_false_r. now destruct (nth_error x i).
  - remember (c :: data0) as data. assert (Z : (List.length data =? 0)%nat = false) by now subst. clear Heqdata. rewrite Z. cbn [negb]. rewrite andb_true_r.
    assert (L : List.length (firstn n (fill x n)) = n) by (rewrite firstn_length; unfold fill; rewrite app_length, repeat_length; lia).
    destruct (Nat.lt_ge_cases i n) as [A|A].
    + replace ((n <=? i)%nat && (i <? n + List.length data)%nat) with false by lia. rewrite nth_error_app1 by lia. rewrite nth_firstn. replace (i <? n)%nat with true by lia. unfold fill. destruct (Nat.lt_ge_cases i (List.length x)) as [B|B].
      * rewrite nth_error_app1 by exact B. destruct (nth_error x i) eqn:E; [reflexivity|]. apply nth_error_None in E. lia.
      * rewrite nth_error_app2 by exact B. rewrite nth_repeat. replace (i - List.length x <? n - List.length x)%nat with true by lia. rewrite (proj2 (nth_error_None x i)) by exact B. reflexivity.
    + rewrite nth_error_app2 by lia. rewrite L. destruct (Nat.lt_ge_cases i (n + List.length data)) as [B|B].
      * replace ((n <=? i)%nat && (i <? n + List.length data)%nat) with true by lia. rewrite nth_error_app1 by lia. reflexivity.
      * replace ((n <=? i)%nat && (i <? n + List.length data)%nat) with false by lia. rewrite nth_error_app2 by lia. rewrite nth_skipn. replace (n + List.length data + (i - n - List.length data))%nat with i by lia.
        replace (i <? n)%nat with false by lia. now destruct (nth_error x i).
Qed.
Lemma part_ok x n k : is_part x n k (firstn k (skipn n x)).
Proof. intros i. unfold byte. rewrite nth_firstn, nth_skipn. reflexivity. Qed.
(** These say what is in the file. *)
Lemma bytes_ext (x y : list N) : (forall i, byte x i = byte y i) -> x = y.
Proof.
  revert y. induction x as [|a x IH]; intros [|b y] H; [reflexivity|specialize (H O); discriminate H|specialize (H O); discriminate H|]. pose proof (H O) as H0. cbn in H0. assert (E : a = b) by congruence. f_equal; [exact E|]. apply IH. intros i. exact (H (S i)).
Qed.
Lemma is_written_one x n data y z : is_written x n data y -> is_written x n data z -> y = z.
Proof. intros A B. apply bytes_ext. intros i. now rewrite A, B. Qed.

Inductive op := OWrite (position : N) (data : list N) | ORead (position n : N) | OSize.
Inductive answer := AWrite (c : code) | ARead (c : code) (y : list N) | ASize (c : code) (n : option N).
Definition do_op (o : op) (st : state) : answer * state :=
  match o with
  | OWrite p data => let (c, st') := write p data st in (AWrite c, st')
  | ORead p n => let (c, y) := read p n st in (ARead c y, st)
  | OSize => let (c, n) := size st in (ASize c n, st)
  end.
Fixpoint do_ops (l : list op) (st : state) : list answer * state :=
  match l with [] => ([], st) | o :: r => let (a, st1) := do_op o st in let (b, st2) := do_ops r st1 in (a :: b, st2) end.
(** What is meant to happen to the bytes [x] of the file. *)
Inductive meant : list N -> op -> answer -> list N -> Prop :=
| m_write x p data y : p < 2 ^ 63 -> is_written x (N.to_nat p) data y -> meant x (OWrite p data) (AWrite NoError) y
| m_write_far x p data : 2 ^ 63 <= p -> meant x (OWrite p data) (AWrite Failed) x
| m_read x p n y : p < 2 ^ 63 -> is_part x (N.to_nat p) (N.to_nat n) y -> meant x (ORead p n) (ARead NoError y) x
| m_read_far x p n : 2 ^ 63 <= p -> meant x (ORead p n) (ARead Failed []) x
| m_size x : meant x OSize (ASize NoError (Some (nlen x))) x.
Inductive all_meant : list N -> list op -> list answer -> list N -> Prop :=
| am_nil x : all_meant x [] [] x
| am_cons x o a y l b z : meant x o a y -> all_meant y l b z -> all_meant x (o :: l) (a :: b) z.
Definition in_range (o : op) : Prop := match o with OWrite p _ | ORead p _ => p < 2 ^ 64 | OSize => True end.
Lemma seeks_ok p : p < 2 ^ 64 -> seeks p = (p <? 2 ^ 63).
Proof. intros H. unfold seeks. change (2 ^ 64) with 18446744073709551616 in *. rewrite N.mod_small by exact H. reflexivity. Qed.
Lemma ops_ok p l : Forall in_range l -> forall d x, content d p = Some x ->
  exists d' y, all_meant x l (fst (do_ops l (d, Some (mkStream p WbPlus)))) y /\ snd (do_ops l (d, Some (mkStream p WbPlus))) = (d', Some (mkStream p WbPlus)) /\
    content d' p = Some y /\ (forall q, q <> p -> content d' q = content d q) /\ d_folders d' = d_folders d.
Proof.
  induction 1 as [|o l R _ IH]; intros d x C.
  - exists d, x. cbn [do_ops fst snd]. repeat split; [constructor|exact C].
  - destruct o as [po data|po n|]; cbn [in_range] in R; cbn [do_ops do_op].
    + unfold write. cbn [snd fst]. rewrite (seeks_ok po R). destruct (po <? 2 ^ 63) eqn:K.
      * unfold fwrite. cbn [st_how can_write appends st_path]. rewrite N.eqb_refl. unfold bytes_of. cbn [st_path]. rewrite C.
        assert (C' : content (put_file d p (put_at x (N.to_nat po) data)) p = Some (put_at x (N.to_nat po) data)) by (rewrite content_put; destruct (str_dec p p); [reflexivity|contradiction]).
        destruct (IH _ _ C') as (d' & y & A & B & E & F & G). destruct (do_ops l _) as (b, st2) eqn:EQ. cbn [fst snd] in *. exists d', y. split; [|split; [exact B|split; [exact E|split]]].
        -- econstructor; [|exact A]. constructor; [lia|apply put_at_ok].
        -- intros q Nq. rewrite F by exact Nq. rewrite content_put. destruct (str_dec p q); [congruence|reflexivity].
        -- exact G.
      * destruct (IH _ _ C) as (d' & y & A & B & E & F & G). destruct (do_ops l _) as (b, st2) eqn:EQ. cbn [fst snd] in *. exists d', y. split; [|now split; [exact B|split; [exact E|split]]]. econstructor; [|exact A]. constructor. lia.
    + unfold read. cbn [snd fst]. rewrite (seeks_ok po R). destruct (IH _ _ C) as (d' & y & A & B & E & F & G). destruct (po <? 2 ^ 63) eqn:K; destruct (do_ops l _) as (b, st2) eqn:EQ; cbn [fst snd] in *; exists d', y; (split; [|now split; [exact B|split; [exact E|split]]]); (econstructor; [|exact A]).
      * unfold fread. cbn [st_how can_read]. unfold bytes_of. cbn [st_path]. rewrite C. constructor; [lia|apply part_ok].
      * constructor. lia.
    + unfold size. cbn [snd fst]. unfold bytes_of. cbn [st_path]. rewrite C. destruct (IH _ _ C) as (d' & y & A & B & E & F & G). destruct (do_ops l _) as (b, st2) eqn:EQ; cbn [fst snd] in *; exists d', y; (split; [|now split; [exact B|split; [exact E|split]]]); (econstructor; [|exact A]). constructor.
Qed.
(** A file that is opened for reading and writing and emptied. *)
Lemma there d f : In (get_full_path (PathModel.f_folder f)) (d_folders d) -> existsb (beq_bytes (get_full_path (PathModel.f_folder f))) (d_folders d) = true.
Proof. intros I. apply existsb_exists. exists (get_full_path (PathModel.f_folder f)). split; [exact I|now apply beq_bytes_spec]. Qed.
Lemma content_put_same d p x : content (put_file d p x) p = Some x.
Proof. rewrite content_put. destruct (str_dec p p); [reflexivity|contradiction]. Qed.
Lemma content_put_other d p x q : q <> p -> content (put_file d p x) q = content d q.
Proof. intros H. rewrite content_put. destruct (str_dec p q); [congruence|reflexivity]. Qed.
Theorem C112_calls d st f p l : file_path f = Some p -> In (get_full_path (PathModel.f_folder f)) (d_folders d) -> Forall in_range l ->
  exists st1 d2 y, open (Some f) true true true (d, st) = (NoError, st1) /\ all_meant [] l (fst (do_ops l st1)) y /\
    close (snd (do_ops l st1)) = (NoError, (d2, None)) /\ content d2 p = Some y /\ forall q, q <> p -> content d2 q = content d q.
Proof.
  intros P I R. unfold open. cbn [andb negb fst]. unfold fopen. rewrite P. cbn [can_write truncates]. rewrite (there _ _ I).
  assert (E : (match content d p with Some _ => put_file d p [] | None => put_file d p [] end) = put_file d p []) by now destruct (content d p). rewrite E. cbn [opened].
  destruct (ops_ok p l R (put_file d p []) [] (content_put_same _ _ _)) as (d2 & y & A & B & C & D & _). eexists. exists d2, y. split; [reflexivity|]. split; [exact A|]. rewrite B. split; [reflexivity|]. split; [exact C|]. intros q N. rewrite D by exact N. now apply content_put_other.
Qed.
(** A file that is opened for reading only is not changed, and can be read everywhere. *)
Theorem C112_read_only d st f p x t position n data : file_path f = Some p -> content d p = Some x -> position < 2 ^ 63 ->
  exists st1, open (Some f) true false t (d, st) = (NoError, st1) /\ size st1 = (NoError, Some (nlen x)) /\
    (exists y, read position n st1 = (NoError, y) /\ is_part x (N.to_nat position) (N.to_nat n) y) /\
    (data <> [] -> write position data st1 = (Failed, st1)) /\ fst st1 = d.
Proof.
  intros P C L. unfold open. cbn [andb negb fst]. unfold fopen. rewrite P. cbn [can_write]. rewrite C. cbn [opened]. eexists. split; [reflexivity|]. assert (K : seeks position = true) by (rewrite seeks_ok by lia; lia).
  split; [unfold size, bytes_of; cbn [fst snd st_path]; now rewrite C|]. split.
  - unfold read, fread, bytes_of. cbn [fst snd st_path st_how can_read]. rewrite K, C. eexists. split; [reflexivity|apply part_ok].
  - split; [|reflexivity]. intros Nd. unfold write, fwrite. cbn [fst snd st_how can_write]. rewrite K. destruct data as [|c r]; [contradiction|]. rewrite nlen_cons. replace (0 =? 1 + nlen r) with false by lia. reflexivity.
Qed.
(** How the library saves a file ([truncate] = [readable] in both places) and reads it again. *)
Lemma put_at_empty data : put_at [] 0 data = data.
Proof. destruct data as [|c r]; [reflexivity|]. unfold put_at. cbn [firstn app]. rewrite skipn_nil, app_nil_r. reflexivity. Qed.
Theorem C112_saved d st f p data both : file_path f = Some p -> In (get_full_path (PathModel.f_folder f)) (d_folders d) ->
  exists st1 st2 d2 st3, open (Some f) both true both (d, st) = (NoError, st1) /\ write 0 data st1 = (NoError, st2) /\ close st2 = (NoError, (d2, None)) /\
    content d2 p = Some data /\ open (Some f) true false false (d2, None) = (NoError, st3) /\ size st3 = (NoError, Some (nlen data)) /\ read 0 (nlen data) st3 = (NoError, data).
Proof.
  intros P I. assert (E : (match content d p with Some _ => put_file d p [] | None => put_file d p [] end) = put_file d p []) by now destruct (content d p).
  set (d2 := put_file (put_file d p []) p data).
  assert (C2 : content d2 p = Some data) by apply content_put_same.
  assert (X : exists st1 st2, open (Some f) both true both (d, st) = (NoError, st1) /\ write 0 data st1 = (NoError, st2) /\ close st2 = (NoError, (d2, None))).
  { destruct both; unfold open; cbn [andb negb fst]; unfold fopen; rewrite P; cbn [can_write truncates]; rewrite (there _ _ I), E; cbn [opened]; eexists; eexists; (split; [reflexivity|]);
    (split; [unfold write; cbn [fst snd]; replace (seeks 0) with true by reflexivity; unfold fwrite, bytes_of; cbn [st_how can_write appends st_path]; rewrite content_put_same, N.eqb_refl; change (N.to_nat 0) with O; rewrite put_at_empty; reflexivity|reflexivity]). }
  destruct X as (st1 & st2 & X1 & X2 & X3). exists st1, st2, d2. eexists. split; [exact X1|]. split; [exact X2|]. split; [exact X3|]. split; [exact C2|].
  unfold open. cbn [andb negb fst]. unfold fopen. rewrite P. cbn [can_write]. rewrite C2. cbn [opened]. split; [reflexivity|]. unfold size, read, fread, bytes_of. cbn [fst snd st_path st_how can_read]. rewrite C2. split; [reflexivity|]. replace (seeks 0) with true by reflexivity. cbn [N.to_nat skipn].
  change (N.to_nat 0) with O. cbn [skipn]. unfold nlen. now rewrite Nat2N.id, firstn_all.
Qed.

(** ** C113: deleting and duplicating *)
Theorem C113_delete d f p : file_path f = Some p -> content (snd (delete_on_disk d f)) p = None /\ forall q, q <> p -> content (snd (delete_on_disk d f)) q = content d q.
Proof.
  intros P. unfold delete_on_disk. rewrite P. destruct (content d p) as [x|] eqn:C; [|now split].
  unfold t_delete, remove. rewrite C. cbn [negb snd]. assert (G : forall q, content (mkDisk (filter (fun e => negb (beq_bytes (fst e) p)) (d_files d)) (d_folders d)) q = if str_dec q p then None else content d q).
  { intros q. pose proof (MvrProps.content_delete d f q) as K. unfold MvrModel.delete_file in K. rewrite P in K. rewrite K. destruct (str_dec q p) as [->|N].
    - assert (R : beq_bytes p p = true) by now apply beq_bytes_spec. now rewrite R.
    - destruct (beq_bytes p q) eqn:B; [apply beq_bytes_spec in B; congruence|reflexivity]. }
  split; [|intros q N]; rewrite G; [destruct (str_dec p p); [reflexivity|contradiction]|destruct (str_dec q p); [contradiction|reflexivity]].
Qed.
(** The answer: success exactly if there was nothing to delete. *)
Theorem C113_delete_answer d f p : file_path f = Some p -> fst (delete_on_disk d f) = NoError <-> content d p = None.
Proof. intros P. unfold delete_on_disk. rewrite P. destruct (content d p) eqn:C; [|now split]. unfold t_delete, remove. rewrite C. cbn. split; discriminate. Qed.
Theorem C113_duplicate d f g p q x b : file_path f = Some p -> file_path g = Some q -> In (get_full_path (PathModel.f_folder g)) (d_folders d) -> content d p = Some x -> p <> q ->
  fst (duplicate_on_disk d f (Some g) b) = NoError /\ content (snd (duplicate_on_disk d f (Some g) b)) q = Some x /\
  forall r, r <> q -> content (snd (duplicate_on_disk d f (Some g) b)) r = content d r.
Proof.
  intros P Q I C N. unfold duplicate_on_disk. rewrite P, Q. unfold t_duplicate. rewrite (there d g I). rewrite C. rewrite (content_put_other d q [] p N), C. cbn [fst snd]. split; [reflexivity|]. split; [apply content_put_same|]. intros r R. rewrite content_put_other by exact R. now apply content_put_other.
Qed.

(** ** C114: extensions *)
Notation plain := PathSpec.plain.
(** The file [s] in the folders [qs]. *)
Definition file (qs : list (list N)) (s : list N) : file_id := mkFile (work qs) s.
Definition whole (qs : list (list N)) (s : list N) : list N := 47 :: join 47 qs ++ s.
Lemma path_file qs s : Forall plain qs -> plain s -> file_path (file qs s) = Some (whole qs s).
Proof.
  intros Fw Pf. unfold whole, file, file_path. cbn [PathModel.f_folder PathModel.f_name work]. destruct (plain_parts _ Fw) as (P1 & _). pose proof Pf as (_ & NE & _). destruct s as [|c e] eqn:E; [contradiction|]. rewrite <- E in *. rewrite get_full_path_parts. unfold work. rewrite P1, (proj2 (MvrProps.enc_plain _ Pf)). reflexivity.
Qed.
Lemma rfind_ch ch d f : ~ In ch f -> nlen (d ++ ch :: f) < two64 -> tx_rfind_ch (d ++ ch :: f) ch npos false = Some (nlen d).
Proof.
  intros Hn L. unfold tx_rfind_ch. pose proof (rfind_if_spec (N.eqb ch) (d ++ ch :: f) npos) as S.
  rewrite nlen_app, nlen_cons in L.
  assert (A : at_pos (d ++ ch :: f) (nlen d) = Some ch).
  { rewrite <- (N.add_0_r (nlen d)), at_pos_app2. reflexivity. }
  destruct (ustr_rfind_if _ _ _) as [k|].
  - destruct S as (S1 & (c & S2 & S3) & S4). f_equal. apply N.eqb_eq in S3. subst c.
    destruct (N.lt_trichotomy k (nlen d)) as [K|[K|K]]; [|assumption|].
    + specialize (S4 (nlen d) ch ltac:(unfold npos, two64 in *; lia) K A). lia.
    + exfalso. replace k with (nlen d + (1 + (k - nlen d - 1))) in S2 by lia. rewrite at_pos_app2 in S2.
      change (ch :: f) with ([ch] ++ f) in S2. change 1 with (nlen [ch]) in S2 at 1. rewrite at_pos_app2 in S2.
      apply at_pos_in in S2. contradiction.
  - exfalso. specialize (S (nlen d) ch ltac:(unfold npos, two64 in *; lia) A). lia.
Qed.
Lemma rfind_none ch s : ~ In ch s -> tx_rfind_ch s ch npos false = None.
Proof.
  intros Hn. unfold tx_rfind_ch. pose proof (rfind_if_spec (N.eqb ch) s npos) as S. destruct (ustr_rfind_if _ _ _) as [k|]; [|reflexivity]. destruct S as (_ & (c & S2 & S3) & _). apply at_pos_in in S2. apply N.eqb_eq in S3. subst. contradiction.
Qed.
Lemma mid_rest d c f : wf16 f -> nlen (d ++ c :: f) < two64 -> mid (d ++ c :: f) (nlen d + 1) npos = f.
Proof.
  intros Wf L. unfold mid. rewrite nlen_app, nlen_cons in *. destruct (_ <=? _) eqn:K; [symmetry; apply nlen_0; lia|].
  rewrite substr_all by (rewrite ?nlen_app, ?nlen_cons; lia). replace (d ++ c :: f) with ((d ++ [c]) ++ f) by now rewrite <- app_assoc. replace (nlen d + 1) with (nlen (d ++ [c])) by (rewrite nlen_app; reflexivity). rewrite skipn_len_app. now apply wf16_trim.
Qed.
Lemma mid_part d p t : wf16 p -> mid (d ++ p ++ t) (nlen d) (nlen p) = p.
Proof.
  intros Wp. destruct p as [|c p]; [|apply mid_piece; [discriminate|now apply wf16_trim]]. unfold mid. destruct (_ <=? _); [reflexivity|]. reflexivity.
Qed.
Lemma last_slash qs s : exists d, whole qs s = d ++ 47 :: s /\ nlen d + 1 = nlen (47 :: join 47 qs).
Proof.
  unfold whole. destruct qs as [|q qs] using rev_ind; [exists []; now split|]. exists (47 :: join 47 qs ++ q). unfold join. rewrite flat_map_app. cbn [flat_map]. rewrite app_nil_r. split.
  - cbn [app]. now rewrite <- !app_assoc.
  - rewrite !nlen_cons, !nlen_app, !nlen_cons, nlen_nil. lia.
Qed.
Lemma surr46 : ~ surrogate 46. Proof. unfold surrogate. lia. Qed.
Theorem C114_get qs stem ext : Forall plain qs -> plain (stem ++ 46 :: ext) -> ~ In 46 ext -> short (whole qs (stem ++ 46 :: ext)) ->
  get_extension (file qs (stem ++ 46 :: ext)) = (NoError, Some ext) /\ get_name_without_extension (file qs (stem ++ 46 :: ext)) = (NoError, Some stem).
Proof.
  intros Fq P Ne Sh. unfold get_extension, get_name_without_extension. rewrite (path_file _ _ Fq P). pose proof P as (W & _ & _ & _ & N47 & N58 & N37). destruct (wf16_cut 46 surr46 stem ext W) as (Ws & We).
  assert (L : nlen (whole qs (stem ++ 46 :: ext)) < two64) by (unfold short, two64 in *; lia). destruct (last_slash qs (stem ++ 46 :: ext)) as (d & Ed & Ld).
  assert (E2 : whole qs (stem ++ 46 :: ext) = ((47 :: join 47 qs) ++ stem) ++ 46 :: ext) by (unfold whole; now rewrite <- app_assoc).
  assert (R : tx_rfind_ch (whole qs (stem ++ 46 :: ext)) 46 npos false = Some (nlen ((47 :: join 47 qs) ++ stem))) by (rewrite E2 in *; now apply rfind_ch).
  assert (R2 : tx_rfind_ch (whole qs (stem ++ 46 :: ext)) 47 npos false = Some (nlen d)) by (rewrite Ed in *; now apply rfind_ch).
  rewrite R, R2. split.
  - rewrite E2 in *. rewrite mid_rest; [reflexivity|exact We|exact L].
  - rewrite Ld. rewrite nlen_app. replace (_ <? _) with false by lia. replace (nlen (47 :: join 47 qs) + nlen stem - nlen (47 :: join 47 qs)) with (nlen stem) by lia.
    replace (whole qs (stem ++ 46 :: ext)) with ((47 :: join 47 qs) ++ stem ++ 46 :: ext) by reflexivity. rewrite mid_part by exact Ws. rewrite convert_id; [reflexivity|]. intros K. apply N37. apply in_or_app. now left.
Qed.
Theorem C114_none qs s : Forall plain qs -> plain s -> ~ In 46 s -> Forall (fun q => ~ In 46 q) qs -> short (whole qs s) ->
  get_extension (file qs s) = (NoError, Some []) /\ get_name_without_extension (file qs s) = (NoError, Some s).
Proof.
  intros Fq P N46 Fn Sh. unfold get_extension, get_name_without_extension. rewrite (path_file _ _ Fq P). pose proof P as (W & _ & _ & _ & N47 & N58 & N37).
  assert (L : nlen (whole qs s) < two64) by (unfold short, two64 in *; lia). destruct (last_slash qs s) as (d & Ed & Ld).
  assert (R : tx_rfind_ch (whole qs s) 46 npos false = None).
  { apply rfind_none. unfold whole. intros [K|K]; [discriminate K|]. apply in_app_or in K as [K|K]; [|contradiction]. unfold join in K. apply in_flat_map in K as (q & I & K). apply in_app_or in K as [K|[K|[]]]; [|discriminate K]. rewrite Forall_forall in Fn. exact (Fn q I K). }
  assert (R2 : tx_rfind_ch (whole qs s) 47 npos false = Some (nlen d)) by (rewrite Ed in *; now apply rfind_ch).
  rewrite R, R2. split; [reflexivity|]. rewrite Ld. assert (E2 : whole qs s = (47 :: join 47 qs) ++ s ++ []) by (unfold whole; now rewrite app_nil_r). rewrite E2. rewrite nlen_app. replace (_ <? _) with false by lia. replace (nlen (47 :: join 47 qs) + nlen (s ++ []) - nlen (47 :: join 47 qs)) with (nlen s) by (rewrite app_nil_r; lia).
  rewrite mid_part by exact W. now rewrite convert_id.
Qed.
(** The name without extension is right even if folders have dots in their names. *)
Theorem C114_name qs s : Forall plain qs -> plain s -> ~ In 46 s -> short (whole qs s) -> get_name_without_extension (file qs s) = (NoError, Some s).
Proof.
  intros Fq P N46 Sh. unfold get_name_without_extension. rewrite (path_file _ _ Fq P). pose proof P as (W & _ & _ & _ & N47 & N58 & N37).
  assert (L : nlen (whole qs s) < two64) by (unfold short, two64 in *; lia). destruct (last_slash qs s) as (d & Ed & Ld).
  assert (R2 : tx_rfind_ch (whole qs s) 47 npos false = Some (nlen d)) by (rewrite Ed in *; now apply rfind_ch). rewrite R2. rewrite Ld.
  assert (E2 : whole qs s = (47 :: join 47 qs) ++ s) by reflexivity. rewrite E2 in *.
  destruct (tx_rfind_ch _ 46 npos false) as [k|] eqn:K.
  - pose proof (rfind_if_spec (N.eqb 46) ((47 :: join 47 qs) ++ s) npos) as S. unfold tx_rfind_ch in K. rewrite K in S. destruct S as (_ & (c & S2 & S3) & _). apply N.eqb_eq in S3. subst c.
    assert (B : k < nlen (47 :: join 47 qs)).
    { destruct (N.lt_ge_cases k (nlen (47 :: join 47 qs))) as [X|X]; [exact X|]. exfalso. apply N46. replace k with (nlen (47 :: join 47 qs) + (k - nlen (47 :: join 47 qs))) in S2 by lia. rewrite at_pos_app2 in S2. exact (at_pos_in _ _ _ S2). }
    replace (k <? _) with true by lia. rewrite nlen_app in L. assert (M : mid ((47 :: join 47 qs) ++ s) (nlen (47 :: join 47 qs)) (18446744073709551616 + k - nlen (47 :: join 47 qs)) = s).
    { unfold mid. rewrite nlen_app. destruct (_ <=? _) eqn:Z; [destruct s as [|c0 s0]; [reflexivity|rewrite (nlen_cons c0) in Z; generalize dependent (nlen (47 :: join 47 qs)); intros; lia]|]. unfold substr. rewrite skipn_len_app, firstn_all2; [now apply wf16_trim|]. unfold nlen, two64 in *. unfold short in Sh. rewrite nlen_app in Sh. unfold nlen in Sh. lia. }
    rewrite M. now rewrite convert_id.
  - rewrite nlen_app. replace (_ <? _) with false by lia. replace (nlen (47 :: join 47 qs) + nlen s - nlen (47 :: join 47 qs)) with (nlen s) by lia. replace ((47 :: join 47 qs) ++ s) with ((47 :: join 47 qs) ++ s ++ []) by now rewrite app_nil_r. rewrite mid_part by exact W. now rewrite convert_id.
Qed.
Theorem C114_set qs stem ext e : Forall plain qs -> plain (stem ++ 46 :: ext) -> ~ In 46 ext -> short (whole qs (stem ++ 46 :: ext)) -> e <> [] -> hd 0 e <> 46 ->
  set_extension (file qs (stem ++ 46 :: ext)) e = (NoError, file qs (stem ++ 46 :: e)).
Proof.
  intros Fq P Ne Sh Nn H46. unfold set_extension. rewrite (path_file _ _ Fq P). destruct e as [|c e]; [contradiction|]. cbn [hd] in H46. pose proof P as (W & _). destruct (wf16_cut 46 surr46 stem ext W) as (Ws & _). unfold file. cbn [PathModel.f_name PathModel.f_folder].
  rewrite rfind_ch; [|exact Ne|unfold short, whole, two64 in *; rewrite nlen_cons, nlen_app in Sh; lia]. replace (c =? 46) with false by lia. assert (Lf : StringModel.left (stem ++ 46 :: ext) (nlen stem) = stem) by (unfold StringModel.left, substr; rewrite skipn_O, firstn_len_app; now rewrite wf16_trim_right). rewrite Lf. reflexivity.
Qed.
Theorem C114_add qs s e : Forall plain qs -> plain s -> ~ In 46 s -> e <> [] -> hd 0 e <> 46 -> set_extension (file qs s) e = (NoError, file qs (s ++ 46 :: e)).
Proof.
  intros Fq P Ne Nn H46. unfold set_extension. rewrite (path_file _ _ Fq P). destruct e as [|c e]; [contradiction|]. cbn [hd] in H46. unfold file. cbn [PathModel.f_name PathModel.f_folder]. rewrite rfind_none by exact Ne. replace (c =? 46) with false by lia. reflexivity.
Qed.

(** ** Where more is wrong *)
Definition disk1 : disk := mkDisk [(T"/a/x.png", [1; 2]); (T"/a/y.png", [7])] [T"/a/"].
Definition fx : file_id := file [T"a"] (T"x.png").
Definition fy : file_id := file [T"a"] (T"y.png").
Definition fz : file_id := file [T"a"] (T"z.png").
(** Opened for writing only, a file is emptied exactly if the caller asks that it is not. *)
Theorem C112_truncate_refuted : exists d f p x data st1 st2, file_path f = Some p /\ content d p = Some x /\
  open (Some f) false true true (d, None) = (NoError, st1) /\ write 0 data st1 = (NoError, st2) /\ content (fst st2) p = Some (x ++ data) /\ x <> [] /\ data <> [].
Proof. exists disk1, fx, (T"/a/x.png"), [1; 2], [5], (disk1, Some (mkStream (T"/a/x.png") Ab)), (put_file disk1 (T"/a/x.png") [1; 2; 5], Some (mkStream (T"/a/x.png") Ab)). repeat split; try reflexivity; discriminate. Qed.
Theorem C112_keep_refuted : exists d f p x st1, file_path f = Some p /\ content d p = Some x /\ x <> [] /\ open (Some f) false true false (d, None) = (NoError, st1) /\ content (fst st1) p = Some [].
Proof. exists disk1, fx, (T"/a/x.png"), [1; 2], (put_file disk1 (T"/a/x.png") [], Some (mkStream (T"/a/x.png") Wb)). repeat split; try reflexivity; discriminate. Qed.
(** Opened for reading and writing without emptying it, what is written is put at the end whatever the position. *)
Theorem C112_position_refuted : exists d f p x data st1 st2 y, file_path f = Some p /\ content d p = Some x /\
  open (Some f) true true false (d, None) = (NoError, st1) /\ write 0 data st1 = (NoError, st2) /\ content (fst st2) p = Some y /\ ~ is_written x 0 data y.
Proof.
  exists disk1, fx, (T"/a/x.png"), [1; 2], [5], (disk1, Some (mkStream (T"/a/x.png") AbPlus)), (put_file disk1 (T"/a/x.png") [1; 2; 5], Some (mkStream (T"/a/x.png") AbPlus)), [1; 2; 5].
  repeat split; try reflexivity. intros H. specialize (H O). discriminate H.
Qed.
(** An [Open] that asks for nothing keeps the file opened before and reports success. *)
Theorem C112_nothing_refuted : exists d f st1, open (Some f) true false false (d, None) = (NoError, st1) /\ open (Some fz) false false false st1 = (NoError, st1) /\ content d (T"/a/z.png") = None.
Proof. exists disk1, fx, (disk1, Some (mkStream (T"/a/x.png") Rb)). now repeat split. Qed.
(** Deleting a file is reported as a failure. *)
Theorem C113_delete_refuted : exists d f p, file_path f = Some p /\ content d p <> None /\ fst (delete_on_disk d f) = Failed /\ content (snd (delete_on_disk d f)) p = None.
Proof. exists disk1, fx, (T"/a/x.png"). repeat split; try reflexivity. discriminate. Qed.
(** A source that is not there: success, and the destination is emptied. *)
Theorem C113_missing_refuted : exists d f g p q, file_path f = Some p /\ file_path g = Some q /\ content d p = None /\ content d q <> None /\ content d q <> Some [] /\
  fst (duplicate_on_disk d f (Some g) false) = NoError /\ content (snd (duplicate_on_disk d f (Some g) false)) q = Some [].
Proof. exists disk1, fz, fx, (T"/a/z.png"), (T"/a/x.png"). repeat split; try reflexivity; discriminate. Qed.
(** A file that must not be overwritten is overwritten. *)
Theorem C113_overwrite_refuted : exists d f g p q, file_path f = Some p /\ file_path g = Some q /\ content d q <> None /\ fst (duplicate_on_disk d f (Some g) false) = NoError /\ content (snd (duplicate_on_disk d f (Some g) false)) q <> content d q.
Proof. exists disk1, fx, fy, (T"/a/x.png"), (T"/a/y.png"). split; [reflexivity|]. split; [reflexivity|]. split; [lazy; discriminate|]. split; [reflexivity|]. lazy. discriminate. Qed.
(** Duplicating a file to itself empties it. *)
Theorem C113_self_refuted : exists d f p x, file_path f = Some p /\ content d p = Some x /\ x <> [] /\ fst (duplicate_on_disk d f (Some f) true) = NoError /\ content (snd (duplicate_on_disk d f (Some f) true)) p = Some [].
Proof. exists disk1, fx, (T"/a/x.png"), [1; 2]. repeat split; try reflexivity; discriminate. Qed.
(** Into a folder that does not exist: success and nothing is written. *)
Theorem C113_folder_refuted : exists d f g p q, file_path f = Some p /\ content d p <> None /\ file_path g = Some q /\ duplicate_on_disk d f (Some g) true = (NoError, d) /\ content d q = None.
Proof. exists disk1, fx, (file [T"b"] (T"x.png")), (T"/a/x.png"), (T"/b/x.png"). repeat split; try reflexivity; discriminate. Qed.
(** An extension that is given with its dot is lost. *)
Theorem C114_dot_refuted : exists qs stem ext e, Forall plain qs /\ plain (stem ++ 46 :: ext) /\ e <> [] /\ ~ In 46 e /\ set_extension (file qs (stem ++ 46 :: ext)) (46 :: e) = (NoError, file qs (stem ++ [46])).
Proof.
  exists [T"a"], (T"x"), (T"png"), (T"svg"). assert (N : Forall name [T"a"; T"x.png"]) by now apply MvrProps.names0. split; [constructor; [exact (proj2 (Forall_inv N))|constructor]|]. split; [exact (proj2 (Forall_inv (Forall_inv_tail N)))|]. split; [discriminate|]. split; [|reflexivity]. intros [K|[K|[K|[]]]]; discriminate K.
Qed.
(** A file without extension in a folder with a dot in its name gets an extension. *)
Theorem C114_folder_refuted : exists qs s e, Forall plain qs /\ plain s /\ ~ In 46 s /\ get_extension (file qs s) = (NoError, Some e) /\ e <> [].
Proof.
  exists [T"a.b"], (T"x"), (T"b/x"). assert (N : Forall name [T"a.b"; T"x"]) by now apply MvrProps.names0. split; [constructor; [exact (proj2 (Forall_inv N))|constructor]|]. split; [exact (proj2 (Forall_inv (Forall_inv_tail N)))|]. split; [intros [K|[]]; discriminate K|]. split; [lazy; reflexivity|discriminate].
Qed.

(** ** The hypotheses can be met *)
Definition ops1 : list op := [OWrite 2 [5; 6]; OWrite 0 [1]; ORead 1 2; OSize; ORead 9223372036854775808 1; OWrite 1 []; ORead 3 9].
Example C112_run : file_path fx = Some (T"/a/x.png") /\ In (get_full_path (PathModel.f_folder fx)) (d_folders disk1) /\ Forall in_range ops1 /\
  let r := do_ops ops1 (snd (open (Some fx) true true true (disk1, None))) in
  fst r = [AWrite NoError; AWrite NoError; ARead NoError [0; 5]; ASize NoError (Some 4); ARead Failed []; AWrite NoError; ARead NoError [6]] /\ content (fst (snd r)) (T"/a/x.png") = Some [1; 0; 5; 6] /\ content (fst (snd r)) (T"/a/y.png") = Some [7].
Proof. split; [reflexivity|]. split; [now left|]. split; [repeat constructor|]. repeat split. Qed.
Example C113_run : file_path fx = Some (T"/a/x.png") /\ file_path fz = Some (T"/a/z.png") /\ In (get_full_path (PathModel.f_folder fz)) (d_folders disk1) /\ content disk1 (T"/a/x.png") = Some [1; 2] /\
  content (snd (duplicate_on_disk disk1 fx (Some fz) false)) (T"/a/z.png") = Some [1; 2].
Proof. split; [reflexivity|]. split; [reflexivity|]. split; [now left|]. split; reflexivity. Qed.
Example C114_hyps : Forall plain [T"a.b"; T"c"] /\ plain (T"x.y" ++ 46 :: T"png") /\ ~ In 46 (T"png") /\ short (whole [T"a.b"; T"c"] (T"x.y" ++ 46 :: T"png")) /\
  get_extension (file [T"a.b"; T"c"] (T"x.y.png")) = (NoError, Some (T"png")) /\ get_name_without_extension (file [T"a.b"; T"c"] (T"x.y.png")) = (NoError, Some (T"x.y")) /\
  set_extension (file [T"a.b"; T"c"] (T"x.y.png")) (T"svg") = (NoError, file [T"a.b"; T"c"] (T"x.y.svg")).
Proof.
  assert (N : Forall name [T"a.b"; T"c"; T"x.y.png"]) by now apply MvrProps.names0. split; [constructor; [exact (proj2 (Forall_inv N))|constructor; [exact (proj2 (Forall_inv (Forall_inv_tail N)))|constructor]]|]. split; [exact (proj2 (Forall_inv (Forall_inv_tail (Forall_inv_tail N))))|].
  split; [intros [K|[K|[K|[]]]]; discriminate K|]. split; [reflexivity|]. split; [lazy; reflexivity|]. split; lazy; reflexivity.
Qed.
Print Assumptions C112_calls. Print Assumptions C112_read_only. Print Assumptions C112_saved. Print Assumptions C112_truncate_refuted. Print Assumptions C112_keep_refuted. Print Assumptions C112_position_refuted. Print Assumptions C112_nothing_refuted.
Print Assumptions C113_delete. Print Assumptions C113_delete_answer. Print Assumptions C113_duplicate. Print Assumptions C113_delete_refuted. Print Assumptions C113_missing_refuted. Print Assumptions C113_overwrite_refuted. Print Assumptions C113_self_refuted. Print Assumptions C113_folder_refuted.
Print Assumptions C114_get. Print Assumptions C114_none. Print Assumptions C114_name. Print Assumptions C114_set. Print Assumptions C114_add. Print Assumptions C114_dot_refuted. Print Assumptions C114_folder_refuted.
