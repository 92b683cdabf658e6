(** * C110, C111: the files in the file of a scene *)
From Coq Require Import String List NArith ZArith Lia Bool Permutation.
From Coq Require Import ZifyN ZifyNat ZifyBool.
From Verif Require Import Bytes Txt UtfSpec UtfModel UtfProofs StringModel StringSpec StringProofs StringProps PathModel PathSpec PathProofs PathProofs2 PathProps ZipModel ZipSpec ZipProofs ZipProps BytesProofs.
From Verif Require KeepProps UnpackProps.
From Verif Require Import MvrModel.
Import ListNotations.
Open Scope N_scope.
Open Scope list_scope.
Ltac Zify.zify_post_hook ::= idtac.
Notation plain := PathSpec.plain.
Notation word := KeepProps.word.
Notation holds := KeepProps.holds.
Notation firsts := KeepProps.firsts.
Notation as_bytes := KeepProps.as_bytes.
Notation as_text := KeepProps.as_text.

(** Names are sequences of code points.  A name of a file or folder: without separators, ':' and '%'. *)
Definition name (w : list N) : Prop := word w /\ plain (enc16 w).
(** The path of the file [f] in the folders [ws]; of the folder itself for [f] = []. *)
Definition path (ws : list (list N)) (f : list N) : list N := 47 :: join 47 (map enc16 ws) ++ enc16 f.
(** What is done between opening and closing. *)
Inductive item :=
| File (ws : list (list N)) (f : list N)
| Buffer (n x : list N)
| Folder (ws : list (list N)).
Definition spelled (i : item) : call :=
  match i with File ws f => AddFile (path ws f) | Buffer n x => AddBuffer (enc16 n) x | Folder ws => AddFolder (path ws []) end.
Definition item_ok (d : disk) (i : item) : Prop :=
  match i with
  | File ws f => Forall name ws /\ name f /\ short (path ws f) /\ content d (path ws f) <> None
  | Buffer n x => word n /\ n <> [] /\ x <> []
  | Folder ws => Forall name ws /\ short (path ws [])
  end.
(** What is meant to be in the file: the files, the buffers and the GDTF files of the first folder that has them. *)
Definition files (d : disk) (is : list item) : list (list N * list N) :=
  flat_map (fun i => match i with File ws f => match content d (path ws f) with Some x => [(f, x)] | None => [] end | _ => [] end) is.
Definition buffers (is : list item) : list (list N * list N) := flat_map (fun i => match i with Buffer n x => [(n, x)] | _ => [] end) is.
Definition folders (is : list item) : list (list (list N)) := flat_map (fun i => match i with Folder ws => [ws] | _ => [] end) is.
Fixpoint found (d : disk) (fs : list (list (list N))) (n : list N) : option (list N) :=
  match fs with
  | [] => None
  | ws :: r => match content d (path ws n) with Some x => Some x | None => found d r n end
  end.
Fixpoint distinct (l : list (list N)) : list (list N) :=
  match l with
  | [] => []
  | x :: r => x :: filter (fun y => if str_dec y x then false else true) (distinct r)
  end.
Definition gdtfs (d : disk) (is : list item) (specs : list (list N)) : list (list N * list N) :=
  flat_map (fun n => match found d (folders is) n with Some x => [(n, x)] | None => [] end) (distinct (filter (fun n => if str_dec n [] then false else true) specs)).
Definition scene_xml : list N := T"GeneralSceneDescription.xml".
Definition expected (d : disk) (is : list item) (desc : list N) (specs : list (list N)) : list (list N * list N) :=
  (scene_xml, desc) :: files d is ++ buffers is ++ gdtfs d is specs.
(** GDTF files that differ only in case are one file. *)
Definition one_case (specs : list (list N)) : Prop :=
  forall a b, In a specs -> In b specs -> map (fold true) (enc16 a) = map (fold true) (enc16 b) -> a = b.
(** An archive of ordinary size: names of 1 to 1024 bytes, fewer than 19280 entries, less than 100 MB. *)
Definition small (o : oracle) (fs : list (list N * list N)) : Prop :=
  Forall (fun e => 1 <= nlen (enc8 (fst e)) <= 1024) fs /\ nlen fs < 19280 /\
  fold_right (fun e s => 76 + 2 * nlen (enc8 (fst e)) + nlen (o_deflate o (snd e)) + s) 22 fs < 101010256.

(** ** Paths *)
Lemma name_parts ws : Forall name ws -> Forall plain (map enc16 ws).
Proof. intros F. apply Forall_map. eapply Forall_impl; [|exact F]. now intros w (_ & P). Qed.
Lemma enc_plain p : plain p -> enc p = p /\ convert_name p = p.
Proof. exact (plain_enc p). Qed.
Lemma plain_wf ws : Forall plain ws -> Forall wf16 ws.
Proof. apply Forall_impl. now intros p (A & _). Qed.
Lemma set_path ws f : Forall name ws -> name f -> short (path ws f) -> set_file_full_path (path ws f) = mkFile (work (map enc16 ws)) (enc16 f).
Proof.
  intros Fw (_ & Pf) L. apply name_parts in Fw. unfold path in *. generalize dependent (map enc16 ws). intros qs Fw L. destruct (plain_parts qs Fw) as (P1 & P2 & P3 & P4). destruct (enc_plain _ Pf) as (E1 & _). pose proof Pf as (W & _ & _ & _ & N47 & _).
  rewrite (set_file_ok (join 47 qs ++ enc16 f) qs (enc16 f)).
  - rewrite (filter_ne_parts qs P2), (fold_low [[]] qs P3), P4, E1. reflexivity.
  - apply wf16_app; [apply wf16_join; now apply plain_wf|exact W].
  - unfold short in L. rewrite nlen_cons in L. unfold two64. lia.
  - apply pieces_entry; [|exact N47]. eapply Forall_impl; [|exact P2]. now intros p (_ & _ & C).
Qed.

Lemma path_of ws f : Forall name ws -> name f -> file_path (mkFile (work (map enc16 ws)) (enc16 f)) = Some (path ws f).
Proof.
  intros Fw (_ & Pf). apply name_parts in Fw. unfold path, file_path. cbn [PathModel.f_folder PathModel.f_name work]. destruct (plain_parts _ Fw) as (P1 & P2 & P3 & P4). pose proof Pf as (_ & NE & _). destruct (enc16 f) as [|c e] eqn:E; [contradiction|]. rewrite <- E in *. rewrite get_full_path_parts.
  unfold work. rewrite P1, (proj2 (enc_plain _ Pf)). reflexivity.
Qed.
Lemma folder_path ws : Forall name ws -> get_full_path (work (map enc16 ws)) = path ws [].
Proof. intros Fw. apply name_parts in Fw. destruct (plain_parts _ Fw) as (P1 & _). unfold path, work. rewrite get_full_path_parts, P1. change (enc16 []) with (@nil N). now rewrite app_nil_r. Qed.
Lemma set_folder ws : Forall name ws -> set_full_path (path ws []) = work (map enc16 ws).
Proof.
  intros Fw. apply name_parts in Fw. unfold path. change (enc16 []) with (@nil N). rewrite app_nil_r. generalize dependent (map enc16 ws). intros qs Fw. destruct (plain_parts qs Fw) as (P1 & P2 & P3 & P4).
  rewrite set_full_path_ok by (apply wf16_join; now apply plain_wf). assert (E : pieces (join 47 qs) = qs ++ [[]]).
  { rewrite <- (app_nil_r (join 47 qs)). apply pieces_entry; [|intros []]. eapply Forall_impl; [|exact P2]. now intros p (_ & _ & C). }
  rewrite E, filter_app, (filter_ne_parts qs P2). cbn [filter ne]. rewrite app_nil_r, (fold_low [[]] qs P3), P4. reflexivity.
Qed.
Lemma set_in ws f : Forall name ws -> name f -> short (path ws f) -> file_set (work (map enc16 ws)) (enc16 f) = mkFile (work (map enc16 ws)) (enc16 f).
Proof.
  intros Fw (_ & Pf) L. apply name_parts in Fw. unfold path in L. generalize dependent (map enc16 ws). intros qs Fw L. destruct (plain_parts qs Fw) as (P1 & P2 & P3 & P4). destruct (enc_plain _ Pf) as (E1 & _). pose proof Pf as (W & NE & _ & _ & N47 & _).
  rewrite (file_set_ok (work qs) qs (enc16 f) [] (enc16 f)).
  - cbn [filter]. rewrite app_nil_r, (fold_low [[]] qs P3), P4, E1. reflexivity.
  - discriminate.
  - exact P1.
  - exact P2.
  - exact NE.
  - exact W.
  - unfold short in L. rewrite nlen_cons, nlen_app in L. unfold two64. lia.
  - now apply pieces_one.
Qed.
Lemma read_path d ws f : Forall name ws -> name f -> read_file d (mkFile (work (map enc16 ws)) (enc16 f)) = content d (path ws f).
Proof. intros A B. unfold read_file. now rewrite path_of. Qed.
Lemma write_path d ws f x : Forall name ws -> name f -> In (path ws []) (d_folders d) -> write_file d (mkFile (work (map enc16 ws)) (enc16 f)) x = put_file d (path ws f) x.
Proof.
  intros A B I. unfold write_file. rewrite path_of by assumption. cbn [PathModel.f_folder]. rewrite folder_path by assumption. assert (E : existsb (beq_bytes (path ws [])) (d_folders d) = true) by (apply existsb_exists; exists (path ws []); split; [exact I|now apply beq_bytes_spec]). now rewrite E.
Qed.
Lemma content_put d p x q : content (put_file d p x) q = if str_dec p q then Some x else content d q.
Proof.
  unfold content, put_file. cbn [d_files find fst snd]. destruct (str_dec p q) as [->|N].
  - assert (E : beq_bytes q q = true) by now apply beq_bytes_spec. now rewrite E.
  - destruct (beq_bytes p q) eqn:E; [apply beq_bytes_spec in E; contradiction|]. induction (d_files d) as [|e l IH]; [reflexivity|]. cbn [filter find]. destruct (beq_bytes (fst e) p) eqn:F; cbn [negb find].
    + apply beq_bytes_spec in F. rewrite F, E. exact IH.
    + destruct (beq_bytes (fst e) q); [reflexivity|exact IH].
Qed.

(** ** Writing the archive *)
Definition ops (clk : list N -> N * N) (l : list (list N * list N)) : list addop := KeepProps.ops clk l.
Lemma adds_run o clk l : Forall (fun e => word (fst e)) l -> forall buf,
  adds o clk buf (as_text l) = do! (c, b) <- run_adds o true (ops clk l) buf; ZOk b.
Proof.
  induction 1 as [|(n, d) l W _ IH]; intros buf; [reflexivity|]. cbn [fst] in W. cbn [KeepProps.as_text KeepProps.ops ops map adds run_adds fst snd]. rewrite (proj1 (KeepProps.word_bytes n W)).
  destruct (add_file o true (clk (enc16 n)) buf (enc8 n) d) as [(c, b)| | | |]; cbn [zbind]; try reflexivity. unfold KeepProps.as_text, KeepProps.ops, ops in *. rewrite IH. destruct (run_adds o true _ b) as [(cs, b')| | | |]; reflexivity.
Qed.
Lemma written o clk l : KeepProps.names_ok o -> Forall (fun e => word (fst e)) l -> small o l ->
  exists buf, adds o clk [] (as_text l) = ZOk buf /\ holds o buf (firsts (as_bytes l)).
Proof.
  intros (C & U) W (S1 & S2 & S3).
  assert (R : reachable_fit (stored_form o true) [] (ops clk l)).
  { apply C15_small_archives_fit.
    - apply Forall_forall. intros ((c, p), d) I. apply in_map_iff in I as (e & E & I). injection E as _ <- _. rewrite Forall_forall in W. specialize (W e I). rewrite Forall_forall in S1. specialize (S1 e I). split; [exact S1|]. pose proof (KeepProps.word_nul _ W) as Z. destruct (enc8 (fst e)); [cbn in S1; lia|exact Z].
    - unfold nlen in *. unfold ops, KeepProps.ops in *. now rewrite map_length in *.
    - eapply N.le_lt_trans; [|exact S3]. clear. induction l as [|e l IH]; [cbn; lia|]. cbn [ops KeepProps.ops map fold_right fst snd] in *. fold (KeepProps.ops clk l) in *. fold (ops clk l) in *. cbn beta iota zeta delta [op_size]. fold (op_size (stored_form o true)). change (stored_form o true (snd e)) with (o_deflate o (snd e)). lia. }
  pose proof (KeepProps.spec_firsts (stored_form o true) clk l W []) as SF. cbn [app ZipSpec.mem existsb negb] in SF. assert (FT : forall k : list (list N * list N), filter (fun _ => true) k = k) by (clear; induction k as [|x k IH]; [reflexivity|]; cbn [filter]; now rewrite IH). rewrite FT in SF.
  destruct (C15_archive_round_trip o true (ops clk l) C R) as (buf & E & G & _). destruct (C16_archive_listing o true (ops clk l) C R) as (cs & buf' & E' & K & D). rewrite E in E'. apply KeepProps.ZOk_inj in E'. injection E' as <- <-.
  exists buf. rewrite (adds_run o clk l W), E. split; [reflexivity|]. unfold ops in *. rewrite SF in *. split; [exact K|]. intros n d I. apply G; [now apply KeepProps.lookup_in|]. apply KeepProps.firsts_in in I. apply in_map_iff in I as (e & H & I). injection H as <- <-. apply U. rewrite Forall_forall in W. now apply W.
Qed.

(** ** The calls *)
Lemma one_case_eq a b : txeq (enc16 a) (enc16 b) = true <-> map (fold true) (enc16 a) = map (fold true) (enc16 b).
Proof. apply C34_equality. Qed.
Lemma txeq_refl a : txeq a a = true.
Proof. now apply C34_equality. Qed.
Lemma distinct_in x l : In x (distinct l) <-> In x l.
Proof.
  induction l as [|y l IH]; [tauto|]. cbn [distinct In]. rewrite filter_In, IH. destruct (str_dec x y) as [->|N]; [intuition|]. split; [intuition|]. intros [E|I]; [now left|right; now split].
Qed.
Lemma need_distinct l : forall acc, (forall a b, In a (acc ++ l) -> In b (acc ++ l) -> txeq (enc16 a) (enc16 b) = true -> a = b) ->
  fold_left need (map enc16 l) (map enc16 acc) = map enc16 (acc ++ filter (fun y => if in_dec str_dec y acc then false else true) (distinct l)).
Proof.
  induction l as [|x l IH]; intros acc H; [cbn; now rewrite app_nil_r|]. cbn [map fold_left distinct filter]. unfold need at 2.
  assert (E : existsb (fun y => txeq y (enc16 x)) (map enc16 acc) = if in_dec str_dec x acc then true else false).
  { destruct (in_dec str_dec x acc) as [I|N].
    - apply existsb_exists. exists (enc16 x). split; [now apply in_map|apply txeq_refl].
    - destruct (existsb _ _) eqn:E; [|reflexivity]. apply existsb_exists in E as (y & I & E). apply in_map_iff in I as (z & <- & I). exfalso. apply N. rewrite <- (H z x); [exact I| | |exact E]; apply in_app_iff; [now left|right; now left]. }
  rewrite E. destruct (in_dec str_dec x acc) as [I|N].
  - rewrite IH.
    + do 2 f_equal. rewrite KeepProps.filter_filter. apply filter_ext. intros y. destruct (str_dec y x) as [->|]; [|reflexivity]. destruct (in_dec str_dec x acc); [reflexivity|contradiction].
    + intros a b A B. apply H; apply in_app_iff; [apply in_app_iff in A as [A|A]|apply in_app_iff in B as [B|B]]; try (now left); right; now right.
  - change [enc16 x] with (map enc16 [x]). rewrite <- map_app, IH.
    + rewrite <- app_assoc. cbn [app]. do 3 f_equal. rewrite KeepProps.filter_filter. apply filter_ext. intros y. destruct (str_dec y x) as [->|D]; cbn [andb].
      * destruct (in_dec str_dec x (acc ++ [x])) as [_|K]; [reflexivity|]. exfalso. apply K. apply in_app_iff. right. now left.
      * destruct (in_dec str_dec y (acc ++ [x])) as [J|J], (in_dec str_dec y acc) as [Q|Q]; try reflexivity; exfalso.
        -- apply in_app_iff in J as [J|[J|[]]]; [contradiction|now apply D].
        -- apply J. apply in_app_iff. now left.
    + intros a b A B. rewrite <- app_assoc in A, B. now apply H.
Qed.
Lemma gdtf_entry_found d fs n : name n -> Forall (fun ws => Forall name ws /\ short (path ws n)) fs ->
  gdtf_entry d (map (fun ws => work (map enc16 ws)) fs) (enc16 n) = match found d fs n with Some x => [(enc16 n, x)] | None => [] end.
Proof.
  intros Nn. induction 1 as [|ws fs (A & L) _ IH]; [reflexivity|]. cbn [map gdtf_entry found]. unfold file_entry. rewrite (set_in ws n A Nn L), (read_path d ws n A Nn). cbn [PathModel.f_name]. destruct (content d (path ws n)); [reflexivity|exact IH].
Qed.
Lemma gdtf_entry_empty d fs : gdtf_entry d fs [] = [].
Proof. induction fs as [|h fs IH]; [reflexivity|]. cbn [gdtf_entry]. exact IH. Qed.
Definition after (s : scene) (is : list item) : scene :=
  mkScene (sc_desc s) (sc_specs s) (sc_path s) (sc_write s) (sc_read s)
    (sc_files s ++ flat_map (fun i => match i with File ws f => [mkFile (work (map enc16 ws)) (enc16 f)] | _ => [] end) is)
    (sc_buffers s ++ as_text (buffers is)) (sc_need s) (sc_folders s ++ map (fun ws => work (map enc16 ws)) (folders is)) (sc_zip s).
Lemma items_run o clk fuel wk d is : Forall (item_ok d) is -> forall s, steps o clk fuel wk (map spelled is) (d, s) = ZOk (repeat NoError (List.length is), (d, after s is)).
Proof.
  induction 1 as [|i is I _ IH]; intros s.
  - unfold after. cbn [flat_map buffers folders map KeepProps.as_text]. rewrite !app_nil_r. destruct s; reflexivity.
  - cbn [map steps List.length repeat]. destruct i as [ws f|n x|ws]; cbn [spelled item_ok] in *.
    + destruct I as (A & B & L & C). cbn [step]. change (match path ws f with [] => no_file | _ :: _ => set_file_full_path (path ws f) end) with (set_file_full_path (path ws f)). rewrite (set_path ws f A B L), (read_path d ws f A B). destruct (content d (path ws f)) as [x|]; [|contradiction]. cbn [zbind]. rewrite IH. cbn [zbind]. unfold after. cbn [sc_desc sc_specs sc_path sc_write sc_read sc_files sc_buffers sc_need sc_folders sc_zip flat_map buffers folders app]. now rewrite <- app_assoc.
    + destruct I as (A & B & C). pose proof (KeepProps.enc16_ne n B) as D. cbn [step]. destruct (enc16 n) as [|c e] eqn:E; [contradiction|]. destruct x as [|b x]; [contradiction|]. cbn [zbind]. rewrite IH. cbn [zbind]. unfold after. cbn [sc_desc sc_specs sc_path sc_write sc_read sc_files sc_buffers sc_need sc_folders sc_zip flat_map buffers folders app KeepProps.as_text map fst snd]. rewrite <- app_assoc, E. reflexivity.
    + destruct I as (A & L). cbn [step zbind]. rewrite IH. cbn [zbind]. unfold after. cbn [sc_desc sc_specs sc_path sc_write sc_read sc_files sc_buffers sc_need sc_folders sc_zip flat_map buffers folders app map]. rewrite <- app_assoc, (set_folder ws A). reflexivity.
Qed.
Lemma steps_app o clk fuel wk a b : forall w, steps o clk fuel wk (a ++ b) w =
  do! (x, w1) <- steps o clk fuel wk a w; do! (y, w2) <- steps o clk fuel wk b w1; ZOk (x ++ y, w2).
Proof.
  induction a as [|c a IH]; intros w; [cbn [app steps zbind]; destruct (steps o clk fuel wk b w) as [(y, w2)| | | |]; reflexivity|]. cbn [app steps]. destruct (step o clk fuel wk c w) as [(x, w1)| | | |]; cbn [zbind]; try reflexivity. rewrite IH. destruct (steps o clk fuel wk a w1) as [(xs, w2)| | | |]; cbn [zbind]; try reflexivity. destruct (steps o clk fuel wk b w2) as [(ys, w3)| | | |]; reflexivity.
Qed.
Lemma as_text_app a b : as_text (a ++ b) = as_text a ++ as_text b.
Proof. apply map_app. Qed.
Lemma files_text d is : Forall (item_ok d) is ->
  flat_map (file_entry d) (flat_map (fun i => match i with File ws f => [mkFile (work (map enc16 ws)) (enc16 f)] | _ => [] end) is) = as_text (files d is).
Proof.
  induction 1 as [|i is I _ IH]; [reflexivity|]. unfold files in *. destruct i as [ws f|n x|ws]; cbn [flat_map app]; [|exact IH|exact IH]. destruct I as (A & B & _ & _). unfold file_entry at 1. rewrite (read_path d ws f A B). cbn [PathModel.f_name]. rewrite as_text_app, IH. destruct (content d (path ws f)); reflexivity.
Qed.
Lemma gdtfs_text d is specs : Forall (fun n => n = [] \/ name n) specs -> Forall (item_ok d) is -> (forall ws n, In ws (folders is) -> In n specs -> short (path ws n)) ->
  flat_map (gdtf_entry d (map (fun ws => work (map enc16 ws)) (folders is))) (map enc16 (distinct specs)) = as_text (gdtfs d is specs).
Proof.
  intros Fs Fi L. unfold gdtfs.
  assert (G : Forall (fun ws => Forall name ws) (folders is)).
  { clear -Fi. induction Fi as [|i is I _ IH]; [constructor|]. unfold folders in *. destruct i; cbn [flat_map app]; try exact IH. constructor; [exact (proj1 I)|exact IH]. }
  assert (D : distinct (filter (fun n => if str_dec n [] then false else true) specs) = filter (fun n => if str_dec n [] then false else true) (distinct specs)).
  { clear. induction specs as [|x l IH]; [reflexivity|]. cbn [filter distinct]. destruct (str_dec x []) as [->|N]; cbn [distinct].
    - rewrite IH, KeepProps.filter_filter. apply filter_ext. intros y. now destruct (str_dec y []).
    - rewrite IH, !KeepProps.filter_filter. f_equal. apply filter_ext. intros y. destruct (str_dec y []), (str_dec y x); reflexivity. }
  rewrite D. assert (Fd : Forall (fun n => (n = [] \/ name n) /\ In n specs) (distinct specs)).
  { apply Forall_forall. intros n I. apply (proj1 (distinct_in n specs)) in I. split; [|exact I]. rewrite Forall_forall in Fs. now apply Fs. }
  clear D. induction Fd as [|n l (M & I) _ IH]; [reflexivity|]. cbn [map flat_map filter]. destruct (str_dec n []) as [->|NE].
  - change (enc16 []) with (@nil BinNums.N). rewrite gdtf_entry_empty. exact IH.
  - destruct M as [->|M]; [contradiction|]. cbn [flat_map]. rewrite as_text_app, <- IH, (gdtf_entry_found d (folders is) n M).
    + destruct (found d (folders is) n); reflexivity.
    + apply Forall_forall. intros ws J. rewrite Forall_forall in G. split; [now apply G|now apply L].
Qed.

(** ** C110: everything that was added is in the file *)
Lemma scene_text : enc16 scene_xml = T"GeneralSceneDescription.xml" /\ enc8 scene_xml = T"GeneralSceneDescription.xml" /\ word scene_xml.
Proof. split; [reflexivity|]. split; [reflexivity|]. unfold KeepProps.word, KeepProps.letter, scalar. cbn. repeat constructor; cbn; lia. Qed.
Lemma expected_words d is desc specs : Forall (item_ok d) is -> Forall (fun n => n = [] \/ name n) specs -> Forall (fun e => word (fst e)) (expected d is desc specs).
Proof.
  intros Fi Fs. constructor; [exact (proj2 (proj2 scene_text))|]. apply Forall_app. split; [|apply Forall_app; split].
  - unfold files. apply Forall_forall. intros e I. apply in_flat_map in I as (i & I & J). rewrite Forall_forall in Fi. specialize (Fi i I). destruct i as [ws f|n x|ws]; [|destruct J|destruct J]. destruct (content d (path ws f)); [|destruct J]. destruct J as [<-|[]]. exact (proj1 (proj1 (proj2 Fi))).
  - unfold buffers. apply Forall_forall. intros e I. apply in_flat_map in I as (i & I & J). rewrite Forall_forall in Fi. specialize (Fi i I). destruct i as [ws f|n x|ws]; [destruct J| |destruct J]. destruct J as [<-|[]]. exact (proj1 Fi).
  - unfold gdtfs. apply Forall_forall. intros e I. apply in_flat_map in I as (n & I & J). apply (proj1 (distinct_in _ _)) in I. apply filter_In in I as (I & K). rewrite Forall_forall in Fs. destruct (Fs n I) as [->|M]; [discriminate K|]. destruct (found d (folders is) n); [|destruct J]. destruct J as [<-|[]]. exact (proj1 M).
Qed.
Theorem C110_new o clk fuel wk d0 d s ps pf is desc specs : KeepProps.names_ok o -> create wk d0 = (d, s) ->
  Forall name ps -> name pf -> short (path ps pf) -> In (path ps []) (d_folders d) ->
  Forall (item_ok d) is -> Forall (fun n => n = [] \/ name n) specs -> (forall ws n, In ws (folders is) -> In n specs -> short (path ws n)) -> one_case specs ->
  small o (expected d is desc specs) ->
  exists d' s' buf, steps o clk fuel wk (OpenWrite (path ps pf) :: map spelled is ++ [Scene desc (map enc16 specs); Close]) (d, s) = ZOk (repeat NoError (3 + List.length is), (d', s')) /\
    content d' (path ps pf) = Some buf /\ holds o buf (firsts (as_bytes (expected d is desc specs))) /\
    forall q, q <> path ps pf -> content d' q = content d q.
Proof.
  intros O C A B L PF Fi Fs Ls OC S. destruct (written o clk _ O (expected_words d is desc specs Fi Fs) S) as (buf & R & H).
  pose proof (f_equal snd C) as Es. cbn [create snd] in Es. clear C. exists (put_file d (path ps pf) buf). eexists. exists buf. split; [|split; [|split]].
  - cbn [steps step]. unfold path at 1. change (47 :: join 47 (map enc16 ps) ++ enc16 pf) with (path ps pf). cbn [zbind]. rewrite steps_app, (items_run o clk fuel wk d is Fi). cbn [zbind steps step]. unfold after. rewrite <- Es. cbn [sc_desc sc_specs sc_path sc_write sc_read sc_files sc_buffers sc_need sc_folders sc_zip app]. unfold entries. cbn [sc_desc sc_specs sc_path sc_write sc_read sc_files sc_buffers sc_need sc_folders sc_zip].
    pose proof (need_distinct specs []) as ND. cbn [map app] in ND. rewrite ND; [|intros a b I J E; apply OC; [exact I|exact J|]; now apply one_case_eq].
    assert (FT : forall k : list (list N), filter (fun y => if in_dec str_dec y [] then false else true) k = k) by (clear; induction k as [|x k IH]; [reflexivity|]; cbn [filter]; destruct (in_dec str_dec x []) as [[]|]; now rewrite IH). rewrite FT.
    rewrite (files_text d is Fi), (gdtfs_text d is specs Fs Fi Ls). unfold expected in R. cbn [KeepProps.as_text map fst snd] in R. rewrite (proj1 scene_text) in R. fold (as_text (files d is ++ buffers is ++ gdtfs d is specs)) in R. rewrite !as_text_app in R. rewrite R. cbn [zbind]. rewrite (set_path ps pf A B L), (write_path d ps pf buf A B PF). cbn [Nat.add repeat]. do 3 f_equal. clear. induction (List.length is) as [|n IH]; [reflexivity|]. cbn [repeat app]. now rewrite IH.
  - rewrite content_put. destruct (str_dec _ _); [reflexivity|contradiction].
  - exact H.
  - intros q N. rewrite content_put. destruct (str_dec _ _) as [E|]; [now contradiction N|reflexivity].
Qed.

(** If all names differ, nothing is missing. *)
Corollary C110_all o clk fuel wk d0 d s ps pf is desc specs : KeepProps.names_ok o -> create wk d0 = (d, s) ->
  Forall name ps -> name pf -> short (path ps pf) -> In (path ps []) (d_folders d) ->
  Forall (item_ok d) is -> Forall (fun n => n = [] \/ name n) specs -> (forall ws n, In ws (folders is) -> In n specs -> short (path ws n)) -> one_case specs ->
  small o (expected d is desc specs) -> NoDup (map (fun e => enc8 (fst e)) (expected d is desc specs)) ->
  exists d' s' buf, steps o clk fuel wk (OpenWrite (path ps pf) :: map spelled is ++ [Scene desc (map enc16 specs); Close]) (d, s) = ZOk (repeat NoError (3 + List.length is), (d', s')) /\
    content d' (path ps pf) = Some buf /\ get_file o buf scene_xml = ZOk (Some desc) /\
    (forall ws f x, In (File ws f) is -> content d (path ws f) = Some x -> get_file o buf (enc8 f) = ZOk (Some x)) /\
    (forall n x, In (Buffer n x) is -> get_file o buf (enc8 n) = ZOk (Some x)) /\
    (forall n x, In n specs -> n <> [] -> found d (folders is) n = Some x -> get_file o buf (enc8 n) = ZOk (Some x)).
Proof.
  intros O C A B L PF Fi Fs Ls OC S D. destruct (C110_new o clk fuel wk d0 d s ps pf is desc specs O C A B L PF Fi Fs Ls OC S) as (d' & s' & buf & R & E & H & _). exists d', s', buf. split; [exact R|]. split; [exact E|].
  rewrite KeepProps.firsts_id in H by (unfold KeepProps.as_bytes; rewrite map_map; exact D). destruct H as (_ & H).
  assert (G : forall n x, In (n, x) (expected d is desc specs) -> get_file o buf (enc8 n) = ZOk (Some x)).
  { intros n x I. apply H. unfold KeepProps.as_bytes. apply in_map_iff. exists (n, x). split; [reflexivity|exact I]. }
  split; [|split; [|split]].
  - pose proof (G scene_xml desc (or_introl eq_refl)) as GS. rewrite (proj1 (proj2 scene_text)) in GS. exact GS.
  - intros ws f x I J. apply G. right. apply in_app_iff. left. unfold files. apply in_flat_map. exists (File ws f). split; [exact I|]. rewrite J. now left.
  - intros n x I. apply G. right. apply in_app_iff. right. apply in_app_iff. left. unfold buffers. apply in_flat_map. exists (Buffer n x). split; [exact I|now left].
  - intros n x I NE J. apply G. right. apply in_app_iff. right. apply in_app_iff. right. unfold gdtfs. apply in_flat_map. exists n. split; [|rewrite J; now left]. apply (proj2 (distinct_in _ _)). apply filter_In. split; [exact I|]. destruct (str_dec n []); [contradiction|reflexivity].
Qed.

(** ** C111: the files are handed out again *)
Definition others (es : list (list N * list N)) : list (list N * list N) := filter (fun e => if str_dec (fst e) scene_xml then false else true) es.
Definition store (ws : list (list N)) (d : disk) (l : list (list N * list N)) : disk := fold_left (fun d e => put_file d (path ws (fst e)) (snd e)) l d.
Lemma enc8_scene n : word n -> beq_bytes (enc8 n) (T"GeneralSceneDescription.xml") = if str_dec n scene_xml then true else false.
Proof.
  intros W. destruct (str_dec n scene_xml) as [->|M].
  - apply beq_bytes_spec. exact (proj1 (proj2 scene_text)).
  - destruct (beq_bytes _ _) eqn:E; [|reflexivity]. apply beq_bytes_spec in E. exfalso. apply M. rewrite <- (proj1 (proj2 scene_text)) in E. apply KeepProps.enc16_inj_word; [exact W|exact (proj2 (proj2 scene_text))|]. apply KeepProps.enc8_inj; [exact W|exact (proj2 (proj2 scene_text))|exact E].
Qed.
Lemma unpack_all o ws buf : Forall name ws -> forall es cur fuel d desc fs, walk (S (List.length es)) buf cur = ZOk (map fst (as_bytes es)) ->
  (forall n x, In (n, x) (as_bytes es) -> get_file o buf n = ZOk (Some x)) -> (List.length es < fuel)%nat ->
  Forall (fun e => name (fst e) /\ short (path ws (fst e))) es -> In (path ws []) (d_folders d) ->
  unpack o (work (map enc16 ws)) fuel buf cur (d, desc, fs) =
    ZOk (store ws d (others es), fold_left (fun a e => if str_dec (fst e) scene_xml then Some (snd e) else a) es desc, fs ++ map (fun e => mkFile (work (map enc16 ws)) (enc16 (fst e))) (others es)).
Proof.
  intros Fw. induction es as [|(n, x) es IH]; intros cur fuel d desc fs Wk G L F PF; (destruct fuel as [|fuel]; [cbn [List.length] in L; lia|]); cbn [List.length KeepProps.as_bytes map walk fst snd] in Wk; cbn [unpack].
  - destruct (next_file buf cur) as [[m|]| | | |]; cbn [zbind] in *; try discriminate Wk. cbn [others filter store fold_left map]. now rewrite app_nil_r.
  - destruct (next_file buf cur) as [[m|]| | | |]; cbn [zbind] in *; try discriminate Wk.
    destruct (walk (S (List.length es)) buf m) as [ns| | | |] eqn:Wm; try (cbn [walk] in Wm; cbn [walk zbind] in Wk; rewrite Wm in Wk; discriminate Wk).
    assert (EQ : m :: ns = enc8 n :: map fst (map (fun e => (enc8 (fst e), snd e)) es)).
    { cbn [walk] in Wm. cbn [walk zbind] in Wk. rewrite Wm in Wk. now apply KeepProps.ZOk_inj in Wk. }
    pose proof (f_equal (hd []) EQ) as E1. pose proof (f_equal (@tl _) EQ) as E2. cbn [hd tl] in E1, E2. subst m ns. clear EQ Wk.
    rewrite (G (enc8 n) x) by (left; reflexivity). cbn [zbind]. pose proof (Forall_inv F) as ((Wn & Pn) & Ln). cbn [fst] in Wn, Pn, Ln. rewrite (enc8_scene n Wn).
    assert (G' : forall n0 x0, In (n0, x0) (as_bytes es) -> get_file o buf n0 = ZOk (Some x0)) by (intros n0 x0 I; apply G; right; exact I).
    assert (L' : (List.length es < fuel)%nat) by (cbn [List.length] in L; lia). cbn [others filter fold_left fst snd]. fold (others es). destruct (str_dec n scene_xml) as [->|M].
    + rewrite (IH (enc8 scene_xml) fuel d (Some x) fs Wm G' L' (Forall_inv_tail F) PF). reflexivity.
    + rewrite (proj2 (KeepProps.word_bytes n Wn)). rewrite (set_in ws n Fw (conj Wn Pn) Ln), (write_path d ws n x Fw (conj Wn Pn) PF). rewrite (IH (enc8 n) fuel (put_file d (path ws n) x) desc _ Wm G' L' (Forall_inv_tail F) PF). cbn [store fold_left map fst snd]. now rewrite <- app_assoc.
Qed.

Lemma path_inj ws a b : name a -> name b -> path ws a = path ws b -> a = b.
Proof. intros (A & _) (B & _) E. unfold path in E. pose proof (f_equal (@tl _) E) as E'. cbn [tl] in E'. apply app_inv_head in E'. now apply KeepProps.enc16_inj_word. Qed.
Lemma store_out ws l : forall d q, (forall e, In e l -> q <> path ws (fst e)) -> content (store ws d l) q = content d q.
Proof.
  induction l as [|e l IH]; intros d q H; [reflexivity|]. cbn [store fold_left]. fold (store ws (put_file d (path ws (fst e)) (snd e)) l). rewrite IH by (intros x I; apply H; now right). rewrite content_put. destruct (str_dec _ _) as [E|]; [|reflexivity]. exfalso. now apply (H e (or_introl eq_refl)).
Qed.
Lemma store_in ws l : Forall (fun e => name (fst e)) l -> NoDup (map fst l) -> forall d n x, In (n, x) l -> content (store ws d l) (path ws n) = Some x.
Proof.
  induction 1 as [|e l A F IH]; intros D d n x I; [destruct I|]. cbn [map] in D. apply NoDup_cons_iff in D as (D1 & D2). cbn [store fold_left]. fold (store ws (put_file d (path ws (fst e)) (snd e)) l). destruct I as [->|I]; [|now apply IH]. cbn [fst snd] in *.
  rewrite store_out; [rewrite content_put; destruct (str_dec _ _); [reflexivity|contradiction]|]. intros e I E. apply D1. apply in_map_iff. exists e. split; [|exact I]. rewrite Forall_forall in F. symmetry. apply (path_inj ws n (fst e) A (F e I) E).
Qed.
Lemma others_in e es : In e (others es) <-> In e es /\ fst e <> scene_xml.
Proof. unfold others. rewrite filter_In. destruct (str_dec (fst e) scene_xml); intuition congruence. Qed.
Lemma others_nodup es : NoDup (map fst es) -> NoDup (map fst (others es)).
Proof.
  induction es as [|e es IH]; [auto|]. cbn [map others filter]. intros D. apply NoDup_cons_iff in D as (D1 & D2). destruct (str_dec (fst e) scene_xml); [now apply IH|]. cbn [map]. apply NoDup_cons_iff. split; [|now apply IH]. intros I. apply D1. apply in_map_iff in I as (x & E & I). apply in_map_iff. exists x. split; [exact E|]. now apply (proj1 (others_in x es)) in I.
Qed.
Lemma last_desc (es : list (list N * list N)) (desc : list N) : NoDup (map fst es) -> In (scene_xml, desc) es -> forall a, fold_left (fun a e => if str_dec (fst e) scene_xml then Some (snd e) else a) es a = Some desc.
Proof.
  assert (K : forall (es : list (list N * list N)) (a : option (list N)), ~ In scene_xml (map fst es) -> fold_left (fun a e => if str_dec (fst e) scene_xml then Some (snd e) else a) es a = a).
  { clear. induction es as [|e es IH]; intros a M; [reflexivity|]. cbn [fold_left]. cbn [map] in M. destruct (str_dec (fst e) scene_xml) as [E|]; [exfalso; apply M; now left|]. apply IH. intros I. apply M. now right. }
  induction es as [|e es IH]; intros D I a; [destruct I|]. cbn [map] in D. apply NoDup_cons_iff in D as (D1 & D2). cbn [fold_left]. destruct I as [->|I].
  - cbn [fst snd] in *. destruct (str_dec scene_xml scene_xml); [|contradiction]. now apply K.
  - now apply IH.
Qed.
(** What [attached] lists. *)
Theorem C111_read o clk fuel ws d s ps pf buf es desc : Forall name ws -> Forall name ps -> name pf -> short (path ps pf) ->
  content d (path ps pf) = Some buf -> holds o buf (as_bytes es) -> Forall (fun e => name (fst e) /\ short (path ws (fst e))) es -> NoDup (map fst es) ->
  In (scene_xml, desc) es -> In (path ws []) (d_folders d) -> (List.length es < fuel)%nat -> sc_zip s = [] ->
  exists d' s', steps o clk fuel (work (map enc16 ws)) [OpenRead (path ps pf)] (d, s) = ZOk ([NoError], (d', s')) /\ sc_desc s' = desc /\
    List.length (sc_zip s') = List.length (others es) /\
    (forall i n x, nth_error (others es) i = Some (n, x) -> attached s' i = path ws n /\ content d' (path ws n) = Some x) /\
    (forall q, (forall e, In e es -> q <> path ws (fst e)) -> content d' q = content d q).
Proof.
  intros Fw A B L E (Wk & G) F D I PF LF Z. eexists. eexists. split.
  { cbn [steps step]. unfold path at 1. change (47 :: join 47 (map enc16 ps) ++ enc16 pf) with (path ps pf). rewrite (set_path ps pf A B L), (read_path d ps pf A B), E.
    assert (LE : List.length (as_bytes es) = List.length es) by apply map_length. rewrite LE in Wk. rewrite (unpack_all o ws buf Fw es [] fuel d None (sc_zip s) Wk G LF F PF). cbn [zbind]. reflexivity. }
  cbn [sc_desc sc_zip]. rewrite (last_desc es desc D I None). split; [reflexivity|]. rewrite Z. cbn [app]. split; [apply map_length|]. split.
  - intros i n x J. assert (J' : In (n, x) (others es)) by (eapply nth_error_In; exact J). pose proof J' as J''. apply (proj1 (others_in _ _)) in J'' as (J'' & _). rewrite Forall_forall in F. split.
    + unfold attached. cbn [sc_zip]. rewrite nth_error_map, J. cbn [option_map fst]. rewrite (path_of ws n Fw (proj1 (F _ J''))). reflexivity.
    + apply store_in; [|now apply others_nodup|exact J']. apply Forall_forall. intros e K. apply (proj1 (others_in _ _)) in K as (K & _). now apply F.
  - intros q H. apply store_out. intros e K. apply (proj1 (others_in _ _)) in K as (K & _). now apply H.
Qed.
Lemma find_gdtf s : (exists p, tx_find s (T".gdtf") 0 false = Some p) <-> exists a b, s = a ++ T".gdtf" ++ b.
Proof.
  pose proof (C37_find s (T".gdtf") 0 false ltac:(discriminate)) as H. split.
  - intros (p & E). rewrite E in H. destruct H as (_ & (a & m & b & -> & _ & M) & _). exists a, b. do 2 f_equal. cbn [fold] in M. rewrite !map_id in M. exact M.
  - intros (a & b & ->). destruct (tx_find _ _ _ _) as [p|]; [now exists p|]. exfalso. apply (H (nlen a)); [lia|]. exists a, (T".gdtf"), b. now repeat split.
Qed.

Lemma enc16_cut w : word w -> forall a c b, c < 55296 -> enc16 w = a ++ c :: b -> exists w1 w2, w = w1 ++ c :: w2 /\ word w2 /\ enc16 w1 = a /\ enc16 w2 = b.
Proof.
  induction 1 as [|x w X W IH]; intros a c b C E; [destruct a; discriminate E|]. unfold enc16 in E. cbn [flat_map] in E. fold (enc16 w) in E.
  destruct a as [|y a].
  - cbn [app] in E. assert (I : In c (enc16_1 x) -> x = c).
    { intros I. destruct (N.eq_dec x c) as [|D]; [assumption|]. exfalso. exact (KeepProps.enc16_1_no x c (proj1 X) C D I). }
    assert (I' : In c (enc16_1 x)). { destruct (enc16_1 x) as [|u us] eqn:U; [unfold enc16_1 in U; destruct (x <? 65536); discriminate U|]. cbn [app] in E. pose proof (f_equal (hd 0) E) as E'. cbn [hd] in E'. left. exact E'. }
    specialize (I I'). subst x. exists [], w. split; [reflexivity|]. split; [exact W|]. split; [reflexivity|]. unfold enc16_1 in E. destruct (c <? 65536) eqn:K; [|lia]. cbn [app] in E. exact (f_equal (@tl _) E).
  - unfold enc16_1 in E. destruct (x <? 65536) eqn:K.
    + cbn [app] in E. pose proof (f_equal (hd 0) E) as E1. pose proof (f_equal (@tl _) E) as E2. cbn [hd tl app] in E1, E2. destruct (IH a c b C E2) as (w1 & w2 & -> & W2 & <- & <-). exists (x :: w1), w2. split; [reflexivity|]. split; [exact W2|]. split; [|reflexivity]. cbn [enc16 flat_map]. unfold enc16_1 at 1. rewrite K. cbn [app]. now rewrite E1.
    + cbn [app] in E. pose proof (f_equal (hd 0) E) as E1. pose proof (f_equal (@tl _) E) as E2. cbn [hd tl app] in E1, E2. destruct a as [|z a].
      * cbn [app] in E2. pose proof (f_equal (hd 0) E2) as E3. cbn [hd] in E3. exfalso. clear -E3 C. generalize dependent ((x - 65536) mod 1024). intros. lia.
      * pose proof (f_equal (hd 0) E2) as E3. pose proof (f_equal (@tl _) E2) as E4. cbn [hd tl app] in E3, E4. destruct (IH a c b C E4) as (w1 & w2 & -> & W2 & <- & <-). exists (x :: w1), w2. split; [reflexivity|]. split; [exact W2|]. split; [|reflexivity]. cbn [enc16 flat_map]. unfold enc16_1 at 1. rewrite K. cbn [app]. now rewrite E1, E3.
Qed.

Lemma enc16_contains w : word w -> (exists a b, enc16 w = a ++ T".gdtf" ++ b) -> exists a b, w = a ++ T".gdtf" ++ b.
Proof.
  intros W (a & b & E). change (a ++ T".gdtf" ++ b) with (a ++ 46 :: 103 :: 100 :: 116 :: 102 :: b) in E.
  destruct (enc16_cut w W a 46 _ ltac:(lia) E) as (w1 & w2 & -> & W2 & _ & E2).
  destruct (enc16_cut w2 W2 [] 103 _ ltac:(lia) E2) as (v & w3 & -> & W3 & V & E3). destruct v as [|y v]; [|now pose proof (KeepProps.enc16_ne (y :: v) ltac:(discriminate))].
  destruct (enc16_cut w3 W3 [] 100 _ ltac:(lia) E3) as (v & w4 & -> & W4 & V4 & E4). destruct v as [|y v]; [|now pose proof (KeepProps.enc16_ne (y :: v) ltac:(discriminate))].
  destruct (enc16_cut w4 W4 [] 116 _ ltac:(lia) E4) as (v & w5 & -> & W5 & V5 & E5). destruct v as [|y v]; [|now pose proof (KeepProps.enc16_ne (y :: v) ltac:(discriminate))].
  destruct (enc16_cut w5 W5 [] 102 _ ltac:(lia) E5) as (v & w6 & -> & W6 & V6 & E6). destruct v as [|y v]; [|now pose proof (KeepProps.enc16_ne (y :: v) ltac:(discriminate))].
  now exists w1, w6.
Qed.
Lemma gdtf_text : enc16 (T".gdtf") = T".gdtf".
Proof. reflexivity. Qed.
(** When the object is deleted, the files it has handed out are deleted, and nothing else. *)
Lemma content_delete d f q : content (delete_file d f) q = if match file_path f with Some p => beq_bytes p q | None => false end then None else content d q.
Proof.
  unfold delete_file. destruct (file_path f) as [p|]; [|reflexivity]. unfold content. cbn [d_files]. induction (d_files d) as [|e l IH]; [now destruct (beq_bytes p q)|]. cbn [filter find].
  destruct (beq_bytes (fst e) p) eqn:B; cbn [negb find].
  - rewrite IH. apply beq_bytes_spec in B. rewrite <- B. destruct (beq_bytes (fst e) q) eqn:X; reflexivity.
  - destruct (beq_bytes (fst e) q) eqn:X; [|exact IH]. destruct (beq_bytes p q) eqn:Y; [|reflexivity]. apply beq_bytes_spec in X, Y. subst. assert (R : beq_bytes (fst e) (fst e) = true) by now apply beq_bytes_spec. congruence.
Qed.
Lemma attached_map s : map (attached s) (seq 0 (List.length (sc_zip s))) = map (fun f => match file_path f with Some p => p | None => [] end) (sc_zip s).
Proof.
  unfold attached. generalize (sc_zip s). intros l. induction l as [|f l IH]; [reflexivity|]. cbn [List.length seq map nth_error]. f_equal. rewrite <- seq_shift, map_map. exact IH.
Qed.
Theorem C111_end d s q : q <> [] -> content (destroy (d, s)) q = if in_dec str_dec q (map (attached s) (seq 0 (List.length (sc_zip s)))) then None else content d q.
Proof.
  intros Nq. rewrite attached_map. unfold destroy. cbn [fst snd]. revert d. induction (sc_zip s) as [|f l IH]; intros d; [reflexivity|]. cbn [fold_left map]. rewrite IH, content_delete.
  destruct (in_dec str_dec q (map _ l)) as [I|I]; destruct (in_dec str_dec q (_ :: _)) as [J|J]; try reflexivity; cbn [In] in J.
  - exfalso. apply J. now right.
  - destruct J as [J|J]; [|contradiction]. destruct (file_path f) as [p|]; [|now symmetry in J]. subst. assert (R : beq_bytes q q = true) by now apply beq_bytes_spec. now rewrite R.
  - destruct (file_path f) as [p|]; [|reflexivity]. destruct (beq_bytes p q) eqn:B; [|reflexivity]. apply beq_bytes_spec in B. exfalso. apply J. now left.
Qed.
(** The GDTF file of a fixture is found, whether its name is given with the extension or without. *)
Theorem C111_gdtf ws d n m x : Forall name ws -> name n -> short (path ws n) -> content d (path ws n) = Some x -> word m ->
  (m = n /\ (exists a b, m = a ++ T".gdtf" ++ b)) \/ (n = m ++ T".gdtf" /\ ~ exists a b, m = a ++ T".gdtf" ++ b) ->
  gdtf_of (work (map enc16 ws)) d (enc16 m) = Some x.
Proof.
  intros Fw Nn L E Wm H. unfold gdtf_of. assert (Q : match tx_find (enc16 m) (T".gdtf") 0 false with Some _ => enc16 m | None => enc16 m ++ T".gdtf" end = enc16 n).
  { destruct H as [(-> & a & b & K)|(-> & K)].
    - destruct (proj2 (find_gdtf (enc16 n))) as (p & P); [|now rewrite P]. exists (enc16 a), (enc16 b). now rewrite K, !enc16_app, gdtf_text.
    - destruct (tx_find (enc16 m) (T".gdtf") 0 false) as [p|] eqn:P; [|now rewrite enc16_app, gdtf_text]. exfalso. apply K. apply enc16_contains; [exact Wm|]. apply (proj1 (find_gdtf _)). now exists p. }
  rewrite Q, (set_in ws n Fw Nn L), (read_path d ws n Fw Nn). exact E.
Qed.

(** Writing a scene with one object and reading it with another. *)
Lemma create_keeps wk d0 d s q : create wk d0 = (d, s) -> content d q = content d0 q.
Proof. intros C. pose proof (f_equal fst C) as Ed. cbn [create fst] in Ed. now rewrite <- Ed. Qed.
Lemma create_folder wk d0 d s : create wk d0 = (d, s) -> In (get_full_path wk) (d_folders d).
Proof.
  intros C. pose proof (f_equal fst C) as Ed. cbn [create fst] in Ed. rewrite <- Ed. cbn [d_folders]. destruct (existsb _ _) eqn:X; [|now left].
  apply existsb_exists in X as (y & I & B). apply beq_bytes_spec in B. now rewrite B.
Qed.
Theorem C111_scene o clk fuel ws d0 d s ps pf is desc specs : KeepProps.names_ok o -> Forall name ws -> create (work (map enc16 ws)) d0 = (d, s) ->
  Forall name ps -> name pf -> short (path ps pf) -> In (path ps []) (d_folders d) ->
  Forall (item_ok d) is -> Forall (fun n => n = [] \/ name n) specs -> (forall ws n, In ws (folders is) -> In n specs -> short (path ws n)) -> one_case specs ->
  small o (expected d is desc specs) -> NoDup (map fst (expected d is desc specs)) ->
  Forall (fun e => name (fst e) /\ short (path ws (fst e))) (expected d is desc specs) -> (List.length (expected d is desc specs) < fuel)%nat ->
  exists d1 s1 d2 s2 d3 s3,
    steps o clk fuel (work (map enc16 ws)) (OpenWrite (path ps pf) :: map spelled is ++ [Scene desc (map enc16 specs); Close]) (d, s) = ZOk (repeat NoError (3 + List.length is), (d1, s1)) /\
    create (work (map enc16 ws)) d1 = (d2, s2) /\ steps o clk fuel (work (map enc16 ws)) [OpenRead (path ps pf)] (d2, s2) = ZOk ([NoError], (d3, s3)) /\ sc_desc s3 = desc /\
    (forall i n x, nth_error (files d is ++ buffers is ++ gdtfs d is specs) i = Some (n, x) -> attached s3 i = path ws n /\ content d3 (path ws n) = Some x).
Proof.
  intros O Fw C A B L PF Fi Fs Ls OC S D F LF. destruct (C110_new o clk fuel (work (map enc16 ws)) d0 d s ps pf is desc specs O C A B L PF Fi Fs Ls OC S) as (d1 & s1 & buf & R & E & H & _).
  destruct (create (work (map enc16 ws)) d1) as (d2, s2) eqn:C2. exists d1, s1, d2, s2.
  assert (DB : NoDup (map fst (as_bytes (expected d is desc specs)))).
  { unfold KeepProps.as_bytes. rewrite map_map. clear -D F. cbn [fst]. induction (expected d is desc specs) as [|e l IH]; [constructor|]. cbn [map] in *. apply NoDup_cons_iff in D as (D1 & D2). pose proof (Forall_inv F) as ((W & _) & _). apply Forall_inv_tail in F. constructor; [|now apply IH]. intros I. apply in_map_iff in I as (x & Q & I). apply D1. apply in_map_iff. exists x. split; [|exact I]. rewrite Forall_forall in F. destruct (F x I) as ((Wx & _) & _). apply KeepProps.enc16_inj_word; [exact Wx|exact W|]. now apply KeepProps.enc8_inj. }
  rewrite KeepProps.firsts_id in H by exact DB.
  destruct (C111_read o clk fuel ws d2 s2 ps pf buf (expected d is desc specs) desc) as (d3 & s3 & R3 & E3 & _ & H3 & _); try assumption.
  - rewrite (create_keeps _ _ _ _ _ C2). exact E.
  - left. reflexivity.
  - rewrite <- (folder_path ws Fw). exact (create_folder _ _ _ _ C2).
  - pose proof (f_equal snd C2) as Ed. cbn [create snd] in Ed. now rewrite <- Ed.
  - exists d3, s3. split; [exact R|]. split; [exact C2|]. split; [exact R3|]. split; [exact E3|].
    assert (Q : others (expected d is desc specs) = files d is ++ buffers is ++ gdtfs d is specs).
    { unfold expected, others. cbn [filter fst]. destruct (str_dec scene_xml scene_xml); [|contradiction]. unfold expected in D. cbn [map fst] in D. apply NoDup_cons_iff in D as (D1 & _). revert D1. generalize (files d is ++ buffers is ++ gdtfs d is specs). clear. induction l as [|x l IH]; intros M; [reflexivity|]. cbn [map] in M. cbn [filter]. destruct (str_dec (fst x) scene_xml) as [E|]; [exfalso; apply M; now left|]. f_equal. apply IH. intros I. apply M. now right. }
    rewrite Q in H3. exact H3.
Qed.

(** ** Where more is lost *)
Definition clk0 (_ : list N) : N * N := (0, 0).
Definition wk0 : list (list N) := work [T"w"].
Definition run0 := steps ZipProps.plain clk0 20 wk0.
Definition disk0 : disk := mkDisk [(T"/a/x.png", [1; 2]); (T"/b/x.png", [3]); (T"/g/Spot.gdtf", [7]); (T"/h/Spot.gdtf", [8]); (T"/h/spot.gdtf", [9])] [T"/o/"].
Definition start0 : disk * scene := create wk0 disk0.
Definition out : list N := path [T"o"] (T"s.mvr").
Definition ok_name (w : list N) : bool :=
  forallb (fun c => (1 <=? c) && (c <? 128) && negb (existsb (N.eqb c) [92; 47; 58; 37])) w && negb (existsb (beq_bytes w) [[]; dot; dotdot]).
Lemma name0 w : ok_name w = true -> name w.
Proof.
  unfold ok_name. intros H. apply andb_true_iff in H as (A & B). rewrite forallb_forall in A. apply negb_true_iff in B.
  assert (Q : forall c, In c w -> 1 <= c < 128 /\ c <> 92 /\ c <> 47 /\ c <> 58 /\ c <> 37) by (intros c I; specialize (A c I); cbn [existsb] in A; lia).
  assert (E : enc16 w = w) by (apply KeepProps.enc16_ascii; apply Forall_forall; intros c I; specialize (Q c I); lia).
  assert (NB : forall x, In x [[]; dot; dotdot] -> w <> x).
  { intros x I ->. assert (K : existsb (beq_bytes x) [[]; dot; dotdot] = true) by (apply existsb_exists; exists x; split; [exact I|now apply beq_bytes_spec]). rewrite K in B. discriminate B. }
  split.
  - apply Forall_forall. intros c I. specialize (Q c I). unfold KeepProps.letter, scalar. lia.
  - rewrite E. unfold PathSpec.plain. split; [apply wf16_ascii; apply Forall_forall; intros c I; specialize (Q c I); lia|]. split; [apply NB; now left|]. split; [apply NB; right; now left|]. split; [apply NB; right; right; now left|]. repeat split; intros I; specialize (Q _ I); lia.
Qed.
Definition ok_item (d : disk) (i : item) : bool :=
  match i with
  | File ws f => forallb ok_name ws && ok_name f && (nlen (path ws f) <? 4294967296) && match content d (path ws f) with Some _ => true | None => false end
  | Buffer n x => ok_name n && match x with [] => false | _ => true end
  | Folder ws => forallb ok_name ws && (nlen (path ws []) <? 4294967296)
  end.
Lemma names0 ws : forallb ok_name ws = true -> Forall name ws.
Proof. intros H. rewrite forallb_forall in H. apply Forall_forall. intros w I. apply name0. now apply H. Qed.
Lemma items_ok d is : forallb (ok_item d) is = true -> Forall (item_ok d) is.
Proof.
  intros H. rewrite forallb_forall in H. apply Forall_forall. intros i I. specialize (H i I). destruct i as [ws f|n x|ws]; cbn [ok_item item_ok] in *.
  - apply andb_true_iff in H as (H & C). apply andb_true_iff in H as (H & L). apply andb_true_iff in H as (H & M). split; [now apply names0|]. split; [now apply name0|]. split; [unfold short; lia|]. destruct (content d (path ws f)); [discriminate|discriminate C].
  - apply andb_true_iff in H as (H & C). pose proof (name0 n H) as (W & P). split; [exact W|]. split; [intros ->; discriminate H|]. destruct x; [discriminate C|discriminate].
  - apply andb_true_iff in H as (H & L). split; [now apply names0|]. unfold short. lia.
Qed.
(** Where a sequence of calls ends, and what is then in the file. *)
Definition ends (o : oracle) (cs : list call) (w : disk * scene) : disk * scene := match steps o clk0 20 wk0 cs w with ZOk (_, w') => w' | _ => w end.
Definition saving (is : list item) (specs : list (list N)) : list call := OpenWrite out :: map spelled is ++ [Scene [60] (map enc16 specs); Close].
Definition file_in (d : disk) : list N := match content d out with Some b => b | None => [] end.
Notation after0 is specs := (ends ZipProps.plain (saving is specs) start0).
(** Two files with the same name in different folders. *)
Theorem C110_same_name_refuted : exists is d' s' buf, Forall (item_ok (fst start0)) is /\
  run0 (saving is []) start0 = ZOk (repeat NoError (3 + List.length is), (d', s')) /\ content d' out = Some buf /\
  exists ws f x, In (File ws f) is /\ content (fst start0) (path ws f) = Some x /\ get_file ZipProps.plain buf (enc8 f) <> ZOk (Some x).
Proof.
  set (is := [File [T"a"] (T"x.png"); File [T"b"] (T"x.png")]). exists is, (fst (after0 is [])), (snd (after0 is [])), (file_in (fst (after0 is []))). split; [now apply items_ok|].
  split; [lazy; reflexivity|]. split; [lazy; reflexivity|]. exists [T"b"], (T"x.png"), [3]. split; [right; now left|]. split; [reflexivity|]. lazy. discriminate.
Qed.
(** Closing a second time writes the file again, without the buffers. *)
Theorem C110_again_refuted : exists is d1 s1 d2 s2 buf1 buf2, Forall (item_ok (fst start0)) is /\
  run0 (saving is []) start0 = ZOk (repeat NoError (3 + List.length is), (d1, s1)) /\ content d1 out = Some buf1 /\
  run0 [Close] (d1, s1) = ZOk ([NoError], (d2, s2)) /\ content d2 out = Some buf2 /\
  exists n x, In (Buffer n x) is /\ get_file ZipProps.plain buf1 (enc8 n) = ZOk (Some x) /\ get_file ZipProps.plain buf2 (enc8 n) <> ZOk (Some x).
Proof.
  set (is := [Buffer (T"b.bin") [5]]). set (w1 := after0 is []). set (w2 := ends ZipProps.plain [Close] w1). exists is, (fst w1), (snd w1), (fst w2), (snd w2), (file_in (fst w1)), (file_in (fst w2)). split; [now apply items_ok|].
  split; [lazy; reflexivity|]. split; [lazy; reflexivity|]. split; [lazy; reflexivity|]. split; [lazy; reflexivity|]. exists (T"b.bin"), [5]. split; [now left|]. split; [lazy; reflexivity|lazy; discriminate].
Qed.
(** A GDTF file that is in none of the folders is not reported. *)
Theorem C110_missing_refuted : exists is specs d' s' buf, Forall (item_ok (fst start0)) is /\ Forall name specs /\
  run0 (saving is specs) start0 = ZOk (repeat NoError (3 + List.length is), (d', s')) /\ content d' out = Some buf /\
  exists n, In n specs /\ file_info ZipProps.plain buf (enc8 n) = ZOk None.
Proof.
  set (is := [Folder [T"a"]]). set (specs := [T"Spot.gdtf"]). exists is, specs, (fst (after0 is specs)), (snd (after0 is specs)), (file_in (fst (after0 is specs))). split; [now apply items_ok|]. split; [now apply names0|]. split; [lazy; reflexivity|]. split; [lazy; reflexivity|]. exists (T"Spot.gdtf"). split; [now left|].
  lazy. reflexivity.
Qed.
(** A name without the extension: the file is looked for with the extension when the scene is read, but not when it is
    written. *)
Theorem C110_extension_refuted : exists is n d' s' buf x, Forall (item_ok (fst start0)) is /\ name n /\
  run0 (saving is [n]) start0 = ZOk (repeat NoError (3 + List.length is), (d', s')) /\ content d' out = Some buf /\
  found (fst start0) (folders is) (n ++ T".gdtf") = Some x /\ file_info ZipProps.plain buf (enc8 (n ++ T".gdtf")) = ZOk None /\ file_info ZipProps.plain buf (enc8 n) = ZOk None.
Proof.
  set (is := [Folder [T"g"]]). set (specs := [T"Spot"]). exists is, (T"Spot"), (fst (after0 is specs)), (snd (after0 is specs)), (file_in (fst (after0 is specs))), [7]. split; [now apply items_ok|]. split; [now apply name0|]. split; [lazy; reflexivity|]. split; [lazy; reflexivity|]. split; [lazy; reflexivity|]. split; lazy; reflexivity.
Qed.
(** Of two files that differ only in case one is missing. *)
Theorem C110_case_refuted : exists is specs d' s' buf, Forall (item_ok (fst start0)) is /\ Forall name specs /\ NoDup specs /\
  run0 (saving is specs) start0 = ZOk (repeat NoError (3 + List.length is), (d', s')) /\ content d' out = Some buf /\
  exists n x, In n specs /\ found (fst start0) (folders is) n = Some x /\ file_info ZipProps.plain buf (enc8 n) = ZOk None.
Proof.
  set (is := [Folder [T"h"]]). set (specs := [T"Spot.gdtf"; T"spot.gdtf"]). exists is, specs, (fst (after0 is specs)), (snd (after0 is specs)), (file_in (fst (after0 is specs))). split; [now apply items_ok|]. split; [now apply names0|]. split; [repeat constructor; [intros [K|[]]; discriminate K|intros []]|]. split; [lazy; reflexivity|]. split; [lazy; reflexivity|]. exists (T"spot.gdtf"), [9]. split; [right; now left|]. split; lazy; reflexivity.
Qed.
(** Nor is a file reported that was deleted before the scene is closed. *)
Theorem C110_gone_refuted : exists is d d' s' buf, Forall (item_ok (fst start0)) is /\ d_folders d = d_folders (fst start0) /\
  run0 (OpenWrite out :: map spelled is ++ [Scene [60] []; Outside d; Close]) start0 = ZOk (repeat NoError (4 + List.length is), (d', s')) /\ content d' out = Some buf /\
  exists ws f, In (File ws f) is /\ file_info ZipProps.plain buf (enc8 f) = ZOk None.
Proof.
  set (is := [File [T"a"] (T"x.png")]). set (d := mkDisk [] (d_folders (fst start0))). set (w := ends ZipProps.plain (OpenWrite out :: map spelled is ++ [Scene [60] []; Outside d; Close]) start0). exists is, d, (fst w), (snd w), (file_in (fst w)). split; [now apply items_ok|]. split; [reflexivity|]. split; [lazy; reflexivity|]. split; [lazy; reflexivity|]. exists [T"a"], (T"x.png"). split; [now left|]. lazy. reflexivity.
Qed.
(** Reading with another object.  A resource in a folder is listed, but its folder is not created. *)
Definition written0 (is : list item) : disk * scene := create wk0 (fst (after0 is [])).
Notation opened is := (ends ZipProps.plain [OpenRead out] (written0 is)).
Theorem C111_folder_refuted : exists is d s n x, Forall (item_ok (fst start0)) is /\ run0 [OpenRead out] (written0 is) = ZOk ([NoError], (d, s)) /\ In (Buffer n x) is /\
  attached s 0 = path [T"w"] n /\ content d (attached s 0) = None.
Proof.
  set (is := [Buffer (T"sub/b.bin") [5]]). exists is, (fst (opened is)), (snd (opened is)), (T"sub/b.bin"), [5]. split.
  { constructor; [|constructor]. split; [|split; discriminate]. apply Forall_forall. intros c I. unfold KeepProps.letter, scalar. cbn in I. repeat (destruct I as [<-|I]; [lia|]). destruct I. }
  split; [lazy; reflexivity|]. split; [now left|]. split; lazy; reflexivity.
Qed.
(** The objects share one folder: reading another scene replaces what was handed out by the first one, deleting the second
    object deletes it, and a fixture of which the file is missing gets the file of another scene. *)
Definition other0 (is : list item) (d : disk) : disk * scene := create wk0 (fst (ends ZipProps.plain (saving is []) (create wk0 d))).
Notation reopened is is2 := (ends ZipProps.plain [OpenRead out] (other0 is2 (fst (opened is)))).
Theorem C111_second_refuted : exists is is2 d s d2 s2 n x, Forall (item_ok (fst start0)) is /\ Forall (item_ok (fst start0)) is2 /\ run0 [OpenRead out] (written0 is) = ZOk ([NoError], (d, s)) /\
  run0 [OpenRead out] (other0 is2 d) = ZOk ([NoError], (d2, s2)) /\ In (Buffer n x) is /\ content d (attached s 0) = Some x /\ content d2 (attached s 0) <> Some x /\ content (destroy (d2, s2)) (attached s 0) = None.
Proof.
  set (is := [Buffer (T"b.bin") [5]]). set (is2 := [Buffer (T"b.bin") [6]]). exists is, is2, (fst (opened is)), (snd (opened is)), (fst (reopened is is2)), (snd (reopened is is2)), (T"b.bin"), [5]. split; [now apply items_ok|]. split; [now apply items_ok|].
  split; [lazy; reflexivity|]. split; [lazy; reflexivity|]. split; [now left|]. split; [lazy; reflexivity|]. split; [lazy; discriminate|lazy; reflexivity].
Qed.
Theorem C111_stale_refuted : exists is is2 d s d2 s2 n x, Forall (item_ok (fst start0)) is /\ Forall (item_ok (fst start0)) is2 /\ run0 [OpenRead out] (written0 is) = ZOk ([NoError], (d, s)) /\
  run0 [OpenRead out] (other0 is2 d) = ZOk ([NoError], (d2, s2)) /\ gdtf_of wk0 d2 n = Some x /\ Forall (fun i => forall m y, i <> Buffer m y) is2 /\ sc_zip s2 = [].
Proof.
  set (is := [Buffer (T"Spot.gdtf") [5]]). set (is2 := [Folder [T"a"]]). exists is, is2, (fst (opened is)), (snd (opened is)), (fst (reopened is is2)), (snd (reopened is is2)), (T"Spot"), [5]. split; [now apply items_ok|]. split; [now apply items_ok|].
  split; [lazy; reflexivity|]. split; [lazy; reflexivity|]. split; [lazy; reflexivity|]. split; [constructor; [discriminate|constructor]|lazy; reflexivity].
Qed.
(** Reading a second time with the same object lists everything twice. *)
Theorem C111_again_refuted : exists is d s, Forall (item_ok (fst start0)) is /\ run0 [OpenRead out; OpenRead out] (written0 is) = ZOk ([NoError; NoError], (d, s)) /\
  List.length (sc_zip s) = (2 * List.length is)%nat /\ is <> [].
Proof.
  set (is := [Buffer (T"b.bin") [5]]). set (w := ends ZipProps.plain [OpenRead out; OpenRead out] (written0 is)). exists is, (fst w), (snd w). split; [now apply items_ok|]. split; [lazy; reflexivity|]. split; [lazy; reflexivity|discriminate].
Qed.
(** A file that does not exist is read without an error. *)
Theorem C111_missing_refuted : exists p d s, content (fst start0) p = None /\ run0 [OpenRead p] start0 = ZOk ([NoError], (d, s)).
Proof. set (w := ends ZipProps.plain [OpenRead out] start0). exists out, (fst w), (snd w). split; [reflexivity|]. lazy. reflexivity. Qed.
(** A resource that cannot be decompressed is handed out as an empty file. *)
Definition marked : oracle := {| o_deflate := fun x => 200 :: x; o_inflate := fun x => match x with c :: y => if c =? 200 then Some y else None | [] => None end; o_crc := fun _ => 0; o_utf8 := fun _ => true |}.
Definition flip (b : list N) : list N := map (fun c => if c =? 200 then 201 else c) b.
Theorem C111_damaged_refuted : exists is d1 s1 buf d s, Forall (item_ok (fst start0)) is /\
  steps marked clk0 20 wk0 (saving is []) start0 = ZOk (repeat NoError (3 + List.length is), (d1, s1)) /\ content d1 out = Some buf /\
  steps marked clk0 20 wk0 [OpenRead out] (put_file d1 out (flip buf), snd start0) = ZOk ([NoError], (d, s)) /\
  exists n x, In (Buffer n x) is /\ get_file marked (flip buf) (enc8 n) = ZOk None /\ content d (attached s 0) = Some [].
Proof.
  set (is := [Buffer (T"b.bin") [5]]). set (w := ends marked (saving is []) start0). set (w2 := ends marked [OpenRead out] (put_file (fst w) out (flip (file_in (fst w))), snd start0)). exists is, (fst w), (snd w), (file_in (fst w)), (fst w2), (snd w2). split; [now apply items_ok|]. split; [lazy; reflexivity|]. split; [lazy; reflexivity|]. split; [lazy; reflexivity|]. exists (T"b.bin"), [5]. split; [now left|]. split; lazy; reflexivity.
Qed.

(** ** The hypotheses can be met *)
Definition items0 : list item := [Folder [T"g"]; File [T"a"] (T"x.png"); Buffer (T"b.bin") [5]; Folder [T"h"]].
Definition specs0 : list (list N) := [T"Spot.gdtf"; []; T"Spot.gdtf"].
Example C110_expected : expected (fst start0) items0 [60] specs0 = [(scene_xml, [60]); (T"x.png", [1; 2]); (T"b.bin", [5]); (T"Spot.gdtf", [7])].
Proof. reflexivity. Qed.
Example C110_hyps : KeepProps.names_ok ZipProps.plain /\ create wk0 disk0 = (fst start0, snd start0) /\ Forall name [T"o"] /\ name (T"s.mvr") /\ short (path [T"o"] (T"s.mvr")) /\
  In (path [T"o"] []) (d_folders (fst start0)) /\ Forall (item_ok (fst start0)) items0 /\ Forall (fun n => n = [] \/ name n) specs0 /\
  (forall ws n, In ws (folders items0) -> In n specs0 -> short (path ws n)) /\ one_case specs0 /\ small ZipProps.plain (expected (fst start0) items0 [60] specs0) /\
  NoDup (map (fun e => enc8 (fst e)) (expected (fst start0) items0 [60] specs0)) /\ NoDup (map fst (expected (fst start0) items0 [60] specs0)) /\
  Forall (fun e => name (fst e) /\ short (path [T"w"] (fst e))) (expected (fst start0) items0 [60] specs0).
Proof.
  split; [split; [exact (proj1 C15_hyps)|reflexivity]|]. split; [reflexivity|]. split; [now apply names0|]. split; [now apply name0|]. split; [reflexivity|]. split; [right; now left|].
  split; [now apply items_ok|]. split; [constructor; [right; now apply name0|constructor; [now left|constructor; [right; now apply name0|constructor]]]|].
  split; [intros ws n [<-|[<-|[]]] [<-|[<-|[<-|[]]]]; reflexivity|]. split; [intros a b [<-|[<-|[<-|[]]]] [<-|[<-|[<-|[]]]]; try reflexivity; discriminate|].
  rewrite C110_expected. split; [|split; [|split]].
  - split; [|split; reflexivity]. apply Forall_forall. intros e [<-|[<-|[<-|[<-|[]]]]]; lazy; split; discriminate.
  - cbn [map fst]. repeat (constructor; [intros K; cbn [In] in K; repeat (destruct K as [K|K]; [lazy in K; discriminate K|]); destruct K|]). constructor.
  - cbn [map fst]. repeat (constructor; [intros K; cbn [In] in K; repeat (destruct K as [K|K]; [lazy in K; discriminate K|]); destruct K|]). constructor.
  - apply Forall_forall. intros e [<-|[<-|[<-|[<-|[]]]]]; (split; [now apply name0|reflexivity]).
Qed.
(** What the theorems say comes out here. *)
Example C111_run : match run0 [OpenRead out] (match run0 (OpenWrite out :: map spelled items0 ++ [Scene [60] (map enc16 specs0); Close]) start0 with ZOk (_, (d, _)) => create wk0 d | _ => start0 end) with
  | ZOk (cs, (d, s)) => cs = [NoError] /\ sc_desc s = [60] /\ map (attached s) [0; 1; 2; 3]%nat = [T"/w/x.png"; T"/w/b.bin"; T"/w/Spot.gdtf"; []] /\ content d (T"/w/x.png") = Some [1; 2] /\
      gdtf_of wk0 d (T"Spot") = Some [7]
  | _ => False
  end.
Proof. lazy. repeat split. Qed.
Print Assumptions C110_new. Print Assumptions C110_all. Print Assumptions C110_same_name_refuted. Print Assumptions C110_again_refuted. Print Assumptions C110_missing_refuted.
Print Assumptions C110_extension_refuted. Print Assumptions C110_case_refuted. Print Assumptions C110_gone_refuted.
Print Assumptions C111_read. Print Assumptions C111_gdtf. Print Assumptions C111_scene. Print Assumptions C111_folder_refuted. Print Assumptions C111_second_refuted. Print Assumptions C111_stale_refuted. Print Assumptions C111_end. Print Assumptions C111_again_refuted.
Print Assumptions C111_missing_refuted. Print Assumptions C111_damaged_refuted.
