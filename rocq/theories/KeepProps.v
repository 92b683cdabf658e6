(** * C106, C107: the resources of a fixture *)
From Coq Require Import String List NArith ZArith Lia Bool Permutation.
From Coq Require Import ZifyN ZifyNat ZifyBool.
From Verif Require Import Bytes Txt UtfSpec UtfModel UtfProofs StringModel StringSpec StringProofs StringProps PathModel PathSpec PathProofs PathProofs2 PathProps ZipModel ZipSpec ZipProofs ZipProps BytesProofs KeepModel.
Import ListNotations.
Open Scope N_scope.
Open Scope list_scope.
Ltac Zify.zify_post_hook ::= idtac.

(** Names are sequences of code points here, without NUL and backslash: [enc16] is the text of the library, [enc8]
    the bytes in the archive. *)
Definition letter (c : N) : Prop := scalar c /\ c <> 0 /\ c <> 92.
Definition word (w : list N) : Prop := Forall letter w.
(** The archive [buf] has the entries [fs], in this order. *)
Definition holds (o : oracle) (buf : zbytes) (fs : list (list N * list N)) : Prop :=
  walk (S (List.length fs)) buf [] = ZOk (map fst fs) /\ forall n d, In (n, d) fs -> get_file o buf n = ZOk (Some d).
(** Entries with the names in UTF-8. *)
Definition as_bytes (l : list (list N * list N)) : list (list N * list N) := map (fun e => (enc8 (fst e), snd e)) l.
Definition as_text (l : list (list N * list N)) : list (list N * list N) := map (fun e => (enc16 (fst e), snd e)) l.
(** The first entry of each name. *)
Fixpoint firsts (l : list (list N * list N)) : list (list N * list N) :=
  match l with
  | [] => []
  | e :: r => e :: filter (fun x => negb (beq_bytes (fst x) (fst e))) (firsts r)
  end.
(** An archive of ordinary size: names of 1 to 1024 bytes, fewer than 19280 entries, less than 100 MB. *)
Definition small (fs : list (list N * list N)) : Prop :=
  Forall (fun e => 1 <= nlen (fst e) <= 1024) fs /\ nlen fs < 19280 /\
  fold_right (fun e s => 76 + 2 * nlen (fst e) + nlen (snd e) + s) 22 fs < 101010256.
(** What is assumed of the conversion of names, on top of the contract of C15. *)
Definition names_ok (o : oracle) : Prop := contract o /\ forall w, word w -> o_utf8 o (enc8 w) = true.

Lemma ZOk_inj {A} (a b : A) : ZOk a = ZOk b -> a = b.
Proof. now intros [= ->]. Qed.
Lemma word_scalar w : word w -> Forall (fun c => scalar c /\ c <> 0) w.
Proof. apply Forall_impl. now intros c (A & B & _). Qed.
Lemma word_bytes w : word w -> to_bytes (enc16 w) = Some (enc8 w) /\ set_from_chars (enc8 w) = Some (enc16 w).
Proof. intros W. destruct (C32_linux_roundtrip w (word_scalar w W)). now split. Qed.
Lemma word_app a b : word (a ++ b) <-> word a /\ word b.
Proof. apply Forall_app. Qed.
Lemma enc8_1_no b c : c < 128 -> b <> c -> ~ In c (enc8_1 b).
Proof.
  intros L N. unfold enc8_1. generalize (b / 64) (b mod 64) (b / 4096) (b / 262144). intros x y z w. generalize ((x mod 64)) ((z mod 64)). intros p q.
  destruct (b <? 128); [|destruct (b <? 2048); [|destruct (b <? 65536)]]; cbn [In]; repeat (intros [E|E]; [clear -L N E; lia|revert E]); intros [].
Qed.
Lemma word_norm w : word w -> norm_path (enc8 w) = enc8 w.
Proof.
  intros W. assert (K : ~ In 92 (enc8 w)).
  { intros I. unfold enc8 in I. apply in_flat_map in I as (b & I & J). unfold word in W. rewrite Forall_forall in W. destruct (W b I) as (_ & _ & N). exact (enc8_1_no b 92 ltac:(lia) N J). }
  unfold norm_path. induction (enc8 w) as [|c l IH]; [reflexivity|]. cbn [map]. destruct (c =? 92) eqn:E; [contradiction K; left; lia|]. f_equal. apply IH. intros I. apply K. now right.
Qed.
Lemma word_nul w : word w -> match enc8 w with c :: _ => c <> 0 | [] => True end.
Proof.
  intros W. destruct (enc8 w) as [|c l] eqn:E; [exact I|]. intros ->. assert (J : In 0 (enc8 w)) by (rewrite E; now left).
  unfold enc8 in J. apply in_flat_map in J as (b & I & J). unfold word in W. rewrite Forall_forall in W. destruct (W b I) as (_ & N & _). exact (enc8_1_no b 0 ltac:(lia) N J).
Qed.
Lemma enc8_inj a b : word a -> word b -> enc8 a = enc8 b -> enc16 a = enc16 b.
Proof. intros A B E. destruct (word_bytes a A) as (_ & H1). destruct (word_bytes b B) as (_ & H2). rewrite E, H2 in H1. now injection H1. Qed.

(** ** The entries of an archive that was written *)
Definition ops (clk : list N -> N * N) (l : list (list N * list N)) : list addop := map (fun e => (clk (enc16 (fst e)), enc8 (fst e), snd e)) l.
Lemma adds_run o clk l : Forall (fun e => word (fst e)) l -> forall buf,
  adds o clk (buf, true) (as_text l) = do! (c, b) <- run_adds o false (ops clk l) buf; ZOk (b, true).
Proof.
  induction 1 as [|(n, d) l W _ IH]; intros buf; [reflexivity|]. cbn [fst] in W. cbn [as_text ops map adds run_adds fst snd]. unfold add1 at 1. cbn [snd fst]. rewrite (proj1 (word_bytes n W)).
  destruct (add_file o false (clk (enc16 n)) buf (enc8 n) d) as [(c, b)| | | |]; cbn [zbind]; try reflexivity. fold (as_text l). fold (ops clk l). rewrite IH. destruct (run_adds o false (ops clk l) b) as [(cs, b')| | | |]; reflexivity.
Qed.
Lemma mem_in n fs : ZipSpec.mem n fs = true <-> In n (map fst fs).
Proof.
  unfold ZipSpec.mem. rewrite existsb_exists, in_map_iff. split.
  - intros (x & I & E). apply beq_bytes_spec in E. now exists x.
  - intros (x & E & I). exists x. split; [exact I|]. now apply beq_bytes_spec.
Qed.
Lemma filter_filter {A} (p q : A -> bool) l : filter p (filter q l) = filter (fun x => q x && p x) l.
Proof. induction l as [|x l IH]; [reflexivity|]. cbn [filter]. destruct (q x) eqn:Q; cbn [filter andb]; rewrite ?IH; reflexivity. Qed.
Lemma beq_sym a b : beq_bytes a b = beq_bytes b a.
Proof. apply eq_true_iff_eq. rewrite !beq_bytes_spec. split; auto. Qed.
Lemma spec_firsts packed clk l : Forall (fun e => word (fst e)) l -> forall fs,
  snd (spec_run packed fs (ops clk l)) = fs ++ filter (fun x => negb (ZipSpec.mem (fst x) fs)) (firsts (as_bytes l)).
Proof.
  induction 1 as [|(n, d) l W _ IH]; intros fs; [cbn; now rewrite app_nil_r|]. cbn [fst] in W. cbn [ops as_bytes map spec_run firsts fst snd]. unfold spec_add. fold (norm_path (enc8 n)). rewrite (word_norm n W).
  fold (ops clk l). fold (as_bytes l). cbn [filter fst]. destruct (ZipSpec.mem (enc8 n) fs) eqn:M; cbn [negb].
  - specialize (IH fs). destruct (spec_run packed fs (ops clk l)) as (cs, fs'). cbn [snd] in *. rewrite IH. f_equal. symmetry.
    assert (G : forall k : list (list N * list N), filter (fun x => negb (ZipSpec.mem (fst x) fs)) (filter (fun x => negb (beq_bytes (fst x) (enc8 n))) k) = filter (fun x => negb (ZipSpec.mem (fst x) fs)) k).
    { induction k as [|x k IHk]; [reflexivity|]. cbn [filter]. destruct (beq_bytes (fst x) (enc8 n)) eqn:B; cbn [negb filter]; [|now rewrite IHk]. apply beq_bytes_spec in B. rewrite B, M. cbn [negb]. exact IHk. }
    apply G.
  - specialize (IH (fs ++ [(enc8 n, d)])). destruct (spec_run packed (fs ++ [(enc8 n, d)]) (ops clk l)) as (cs, fs'). cbn [snd] in *. rewrite IH, <- app_assoc. cbn [app]. do 2 f_equal.
    rewrite filter_filter. apply filter_ext. intros x. unfold ZipSpec.mem. rewrite existsb_app. cbn [existsb fst]. rewrite orb_false_r, beq_sym. destruct (existsb _ fs), (beq_bytes (fst x) (enc8 n)); reflexivity.
Qed.
Lemma lookup_in n d fs : NoDup (map fst fs) -> In (n, d) fs -> lookup n fs = Some d.
Proof.
  induction fs as [|(m, x) fs IH]; intros D I; [destruct I|]. cbn [map fst] in D. inversion_clear D as [|? ? N D']. cbn [lookup]. destruct I as [E|I].
  - injection E as -> ->. assert (C : beq_bytes n n = true) by now apply beq_bytes_spec. now rewrite C.
  - destruct (beq_bytes m n) eqn:B; [|now apply IH]. apply beq_bytes_spec in B. subst m. exfalso. apply N. apply in_map_iff. now exists (n, d).
Qed.
Lemma firsts_in x l : In x (firsts l) -> In x l.
Proof. induction l as [|e l IH]; [auto|]. cbn [firsts]. intros [->|I]; [now left|]. right. apply filter_In in I. now apply IH. Qed.
(** Writing entries of any names gives an archive with the first entry of each name. *)
Lemma written o clk l : names_ok o -> Forall (fun e => word (fst e)) l -> small (as_bytes l) ->
  exists buf, adds o clk ([], true) (as_text l) = ZOk (buf, true) /\ holds o buf (firsts (as_bytes l)).
Proof.
  intros (C & U) W (S1 & S2 & S3).
  assert (R : reachable_fit (stored_form o false) [] (ops clk l)).
  { apply C15_small_archives_fit.
    - apply Forall_forall. intros ((c, p), d) I. apply in_map_iff in I as (e & E & I). injection E as _ <- _. rewrite Forall_forall in W. specialize (W e I). rewrite Forall_forall in S1. specialize (S1 (enc8 (fst e), snd e) ltac:(apply in_map_iff; now exists e)). cbn [fst] in S1. split; [exact S1|]. pose proof (word_nul _ W) as Z. destruct (enc8 (fst e)); [cbn in S1; lia|exact Z].
    - unfold nlen in *. unfold ops, as_bytes in *. now rewrite map_length in *.
    - eapply N.le_lt_trans; [|exact S3]. clear. induction l as [|e l IH]; [cbn; lia|]. cbn [ops as_bytes map fold_right fst snd] in *. fold (ops clk l) in *. fold (as_bytes l) in *. cbn beta iota zeta delta [op_size]. fold (op_size (stored_form o false)). change (stored_form o false (snd e)) with (snd e). lia. }
  pose proof (spec_firsts (stored_form o false) clk l W []) as SF. cbn [app ZipSpec.mem existsb negb] in SF. assert (FT : forall k : list (list N * list N), filter (fun _ => true) k = k) by (clear; induction k as [|x k IH]; [reflexivity|]; cbn [filter]; now rewrite IH). rewrite FT in SF.
  destruct (C15_archive_round_trip o false (ops clk l) C R) as (buf & E & G & _). destruct (C16_archive_listing o false (ops clk l) C R) as (cs & buf' & E' & K & D). rewrite E in E'. apply ZOk_inj in E'. injection E' as <- <-.
  exists buf. rewrite (adds_run o clk l W), E. split; [reflexivity|]. rewrite SF in *. split; [exact K|]. intros n d I. apply G; [now apply lookup_in|]. apply firsts_in in I. apply in_map_iff in I as (e & H & I). injection H as <- <-. apply U. rewrite Forall_forall in W. now apply W.
Qed.
Lemma firsts_id l : NoDup (map fst l) -> firsts l = l.
Proof.
  induction l as [|e l IH]; [reflexivity|]. cbn [map firsts]. intros D. inversion_clear D as [|? ? N D']. rewrite (IH D'). f_equal. clear IH D'. induction l as [|x l IH]; [reflexivity|]. cbn [filter]. destruct (beq_bytes (fst x) (fst e)) eqn:B; cbn [negb].
  - apply beq_bytes_spec in B. exfalso. apply N. left. exact B.
  - f_equal. apply IH. intros I. apply N. now right.
Qed.

(** ** C106: everything that was added is in the file *)
(** The folders of the GDTF specification. *)
Definition folder (k : kind) : list N :=
  match k with
  | ImageWheel => T"wheels/" | RessoureFixture => []
  | Model3DS => T"models/3ds/" | Model3DSLow => T"models/3ds_low/" | Model3DSHigh => T"models/3ds_high/"
  | ModelSVG => T"models/svg/" | ModelSVGSide => T"models/svg_side/" | ModelSVGFront => T"models/svg_front/"
  | ModelGLTF => T"models/gltf/" | ModelGLTFLow => T"models/gltf_low/" | ModelGLTFHigh => T"models/gltf_high/"
  end.
Definition file_name (k : kind) (name : list N) : list N := folder k ++ name.
(** The calls between opening and closing, and what they are meant to leave. *)
Definition edit (c : call) : Prop := match c with Add _ _ _ | Describe _ => True | _ => False end.
Definition added (cs : list call) : list (list N * list N) :=
  flat_map (fun c => match c with Add k name data => [(file_name k name, data)] | _ => [] end) cs.
Definition described (d : list N) (cs : list call) : list N :=
  fold_left (fun d c => match c with Describe d' => d' | _ => d end) cs d.
(** The same calls with the names as texts of the library. *)
Definition spelled (c : call) : call := match c with Add k name data => Add k (enc16 name) data | c => c end.
Lemma enc16_ascii s : Forall (fun c => c < 128) s -> enc16 s = s.
Proof. induction 1 as [|c s H _ IH]; [reflexivity|]. rewrite enc16_cons, IH. unfold enc16_1. replace (c <? 65536) with true by lia. reflexivity. Qed.
Lemma enc8_ascii s : Forall (fun c => c < 128) s -> enc8 s = s.
Proof. induction 1 as [|c s H _ IH]; [reflexivity|]. rewrite enc8_cons, IH. unfold enc8_1. replace (c <? 128) with true by lia. reflexivity. Qed.
Lemma folder_ascii k : Forall (fun c => c < 128) (sub_folder k).
Proof. destruct k; cbn; repeat constructor. Qed.
Lemma folder_word k : word (sub_folder k).
Proof. destruct k; unfold word, letter, scalar; cbn; repeat constructor; lia. Qed.
Lemma file_text k name : enc16 (file_name k name) = sub_folder k ++ enc16 name.
Proof. unfold file_name. replace (folder k) with (sub_folder k) by (destruct k; reflexivity). now rewrite enc16_app, (enc16_ascii _ (folder_ascii k)). Qed.
Lemma desc_text : enc16 (T"description.xml") = T"description.xml" /\ enc8 (T"description.xml") = T"description.xml".
Proof. split; vm_compute; reflexivity. Qed.
Lemma desc_word : word (T"description.xml").
Proof. unfold word, letter, scalar. cbn. repeat constructor; lia. Qed.
Lemma adds_app o clk a b : forall z, adds o clk z (a ++ b) = do! z' <- adds o clk z a; adds o clk z' b.
Proof. induction a as [|(n, d) a IH]; intros z; [reflexivity|]. cbn [app adds]. destruct (add1 o clk z n d); cbn [zbind]; [apply IH|reflexivity..]. Qed.
Lemma add1_write o clk z n d z' : add1 o clk z n d = ZOk z' -> snd z' = snd z.
Proof.
  unfold add1. destruct (snd z) eqn:E; [|now intros [= <-]]. destruct (to_bytes n); [|discriminate]. destruct (add_file _ _ _ _ _ _) as [(c, b)| | | |]; cbn [zbind]; try discriminate. now intros [= <-].
Qed.
Lemma steps_app o clk again blank fuel a b : forall s, steps o clk again blank fuel (a ++ b) s =
  do! (x, s') <- steps o clk again blank fuel a s; do! (y, s'') <- steps o clk again blank fuel b s'; ZOk (x ++ y, s'').
Proof.
  induction a as [|c a IH]; intros s.
  - cbn [app steps zbind]. destruct (steps _ _ _ _ _ b s) as [(y, s'')| | | |]; reflexivity.
  - cbn [app steps]. destruct (step _ _ _ _ _ c s) as [(x, s')| | | |]; cbn [zbind]; try reflexivity. rewrite IH. destruct (steps _ _ _ _ _ a s') as [(xs, s1)| | | |]; cbn [zbind]; try reflexivity. destruct (steps _ _ _ _ _ b s1) as [(y, s2)| | | |]; reflexivity.
Qed.
Lemma edits_run o clk again blank fuel cs : Forall edit cs -> forall f z a buf z', adds o clk z (as_text (added cs)) = ZOk z' ->
  steps o clk again blank fuel (map spelled cs) (mkSt (Some f) (Some z) a buf) =
  ZOk (repeat NoError (List.length cs), mkSt (Some (mkFx (described (fx_desc f) cs) (fx_files f))) (Some z') (a ++ as_text (added cs)) buf).
Proof.
  induction 1 as [|c cs E _ IH]; intros f z a buf z' R.
  - cbn in R. apply ZOk_inj in R. subst z'. destruct f. cbn. now rewrite app_nil_r.
  - destruct c as [| d |k name data| | |]; try destruct E.
    + cbn [map spelled steps step s_fix s_zip s_added s_buf zbind]. rewrite (IH (mkFx d (fx_files f)) z a buf z' R). reflexivity.
    + unfold added in R. cbn [flat_map] in R. fold (added cs) in R. unfold as_text in R. rewrite map_app in R. fold (as_text (added cs)) in R. rewrite adds_app in R. cbn [map adds fst snd] in R. rewrite file_text in R. cbn [map spelled steps step s_fix s_zip s_added s_buf].
      destruct (add1 o clk z (sub_folder k ++ enc16 name) data) as [z1| | | |] eqn:A; cbn [zbind] in R |- *; try discriminate R.
      rewrite (IH f z1 _ buf z' R). cbn [zbind List.length repeat]. do 2 f_equal. f_equal. unfold added. cbn [flat_map]. unfold as_text. rewrite map_app, <- app_assoc. cbn [map fst snd]. now rewrite file_text.
Qed.
Lemma adds_prefix o clk a b z z' : adds o clk z (a ++ b) = ZOk z' -> exists z1, adds o clk z a = ZOk z1 /\ adds o clk z1 b = ZOk z'.
Proof. rewrite adds_app. destruct (adds o clk z a) as [z1| | | |]; cbn [zbind]; intros H; try discriminate H. now exists z1. Qed.
(** A new fixture, described and filled in any order, then closed: the file has what was added, and then the
    description; of entries with the same name the first. *)
Theorem C106_new o clk again blank fuel s d cs : names_ok o -> Forall edit cs -> Forall (fun e => word (fst e)) (added cs) ->
  small (as_bytes (added cs ++ [(T"description.xml", described d cs)])) ->
  exists s', steps o clk again blank fuel (Open d :: map spelled cs ++ [Close]) s = ZOk (repeat NoError (2 + List.length cs), s') /\
    holds o (s_buf s') (firsts (as_bytes (added cs ++ [(T"description.xml", described d cs)]))).
Proof.
  intros O E W S. set (l := added cs ++ _) in *. assert (WL : Forall (fun e => word (fst e)) l) by (apply Forall_app; split; [exact W|constructor; [exact desc_word|constructor]]).
  destruct (written o clk l O WL S) as (buf & R & H). unfold as_text, l in R. rewrite map_app in R. fold (as_text (added cs)) in R. cbn [map fst snd] in R. rewrite (proj1 desc_text) in R. destruct (adds_prefix _ _ _ _ _ _ R) as (z1 & R1 & R2).
  cbn [steps step zbind]. rewrite steps_app. pose proof (edits_run o clk again blank fuel cs E (mkFx d []) ([], true) [] (s_buf s) z1 R1) as ER. unfold zip, zbytes in *. rewrite ER. cbn [zbind steps step s_fix s_zip fx_files fx_desc s_added]. unfold export. cbn [fx_desc fx_files meshes flat_map]. rewrite R2. cbn [zbind fst].
  refine (ex_intro _ (mkSt _ _ _ buf) _). split; [|exact H]. cbn [Nat.add repeat]. do 3 f_equal. clear. induction (List.length cs) as [|n IH]; [reflexivity|]. cbn [repeat app]. now rewrite IH.
Qed.
(** If all names differ, nothing is missing. *)
Corollary C106_all o clk again blank fuel s d cs : names_ok o -> Forall edit cs -> Forall (fun e => word (fst e)) (added cs) ->
  small (as_bytes (added cs ++ [(T"description.xml", described d cs)])) -> NoDup (T"description.xml" :: map (fun e => enc8 (fst e)) (added cs)) ->
  exists s', steps o clk again blank fuel (Open d :: map spelled cs ++ [Close]) s = ZOk (repeat NoError (2 + List.length cs), s') /\
    get_file o (s_buf s') (T"description.xml") = ZOk (Some (described d cs)) /\
    forall n x, In (n, x) (added cs) -> get_file o (s_buf s') (enc8 n) = ZOk (Some x).
Proof.
  intros O E W S D. destruct (C106_new o clk again blank fuel s d cs O E W S) as (s' & R & H). exists s'. split; [exact R|]. rewrite firsts_id in H.
  - destruct H as (_ & H). split.
    + apply H. unfold as_bytes. rewrite map_app. apply in_app_iff. right. left. cbn [fst snd]. now rewrite (proj2 desc_text).
    + intros n x I. apply H. unfold as_bytes. apply in_map_iff. exists (n, x). split; [reflexivity|]. apply in_app_iff. now left.
  - unfold as_bytes. rewrite map_app, map_app, map_map. cbn [map fst]. rewrite (proj2 desc_text). eapply Permutation_NoDup; [|exact D]. apply Permutation_cons_append.
Qed.
(** Otherwise the calls report success and something is missing. *)
Definition clk0 (_ : list N) : N * N := (0, 0).
Definition run0 := steps ZipProps.plain clk0 (fun x => x) (T"<GDTF/>") 9.
Theorem C106_twice_refuted : exists cs s', Forall edit cs /\ Forall (fun e => word (fst e)) (added cs) /\
  run0 (Open [60] :: map spelled cs ++ [Close]) fresh = ZOk (repeat NoError (2 + List.length cs), s') /\
  exists n x, In (n, x) (added cs) /\ get_file ZipProps.plain (s_buf s') (enc8 n) <> ZOk (Some x).
Proof.
  exists [Add ImageWheel (T"a.png") [1]; Add ImageWheel (T"a.png") [2]]. eexists. split; [repeat constructor|]. split; [unfold word, letter, scalar; cbn; repeat constructor; cbn; lia|]. split; [vm_compute; reflexivity|].
  exists (T"wheels/a.png"), [2]. split; [cbn; auto|]. vm_compute. discriminate.
Qed.
Theorem C106_description_refuted : exists cs s', Forall edit cs /\ Forall (fun e => word (fst e)) (added cs) /\
  run0 (Open [60] :: map spelled cs ++ [Close]) fresh = ZOk (repeat NoError (2 + List.length cs), s') /\
  get_file ZipProps.plain (s_buf s') (T"description.xml") <> ZOk (Some (described [60] cs)).
Proof.
  exists [Add RessoureFixture (T"description.xml") [1]]. eexists. split; [repeat constructor|]. split; [unfold word, letter, scalar; cbn; repeat constructor; cbn; lia|]. split; [vm_compute; reflexivity|]. vm_compute. discriminate.
Qed.
(** What is done after the first Close never gets into the file, although every call succeeds. *)
Theorem C106_later_refuted : exists cs s', Forall edit cs /\ run0 (Open [60] :: Close :: map spelled cs ++ [Close]) fresh = ZOk (repeat NoError (3 + List.length cs), s') /\
  get_file ZipProps.plain (s_buf s') (T"description.xml") <> ZOk (Some (described [60] cs)) /\
  exists n x, In (n, x) (added cs) /\ file_info ZipProps.plain (s_buf s') (enc8 n) = ZOk None.
Proof.
  exists [Describe [61]; Add ImageWheel (T"a.png") [1]]. eexists. split; [repeat constructor|]. split; [vm_compute; reflexivity|]. split; [vm_compute; discriminate|]. exists (T"wheels/a.png"), [1]. split; [cbn; auto|]. vm_compute. reflexivity.
Qed.
Definition a_session : list call := [Add Model3DS (T"base.3ds") [1; 2]; Describe [60; 62]; Add Model3DSLow (T"base.3ds") [3]; Add ImageWheel [8364] []].
Example C106_case : Forall edit a_session /\ Forall (fun e => word (fst e)) (added a_session) /\ small (as_bytes (added a_session ++ [(T"description.xml", described [60] a_session)])) /\
  NoDup (T"description.xml" :: map (fun e => enc8 (fst e)) (added a_session)) /\ described [60] a_session = [60; 62].
Proof.
  split; [repeat constructor|]. split; [unfold word, letter, scalar; cbn; repeat constructor; cbn; lia|]. split; [|split; [|reflexivity]].
  - split; [vm_compute; repeat constructor; discriminate|]. split; vm_compute; reflexivity.
  - vm_compute. repeat constructor; cbn; intuition discriminate.
Qed.
Example C106_oracle : names_ok ZipProps.plain.
Proof. split; [split; reflexivity|reflexivity]. Qed.

(** ** C107: a fixture that is read and saved again *)
(** Resources: the folders, the name, the content. *)
Record res := mkRes { r_folders : list (list N); r_name : list N; r_data : list N }.
Definition r_path (r : res) : list N := flat_map (fun c => c ++ [47]) (r_folders r) ++ r_name r.
Definition res_ok (r : res) : Prop :=
  Forall (fun c => word c /\ c <> [] /\ ~ In 47 c) (r_folders r) /\ word (r_name r) /\ ~ In 47 (r_name r).
Definition is_desc (r : res) : bool := beq_bytes (r_path r) (T"description.xml").
Definition entries (l : list res) : list (list N * list N) := map (fun r => (r_path r, r_data r)) l.
(** The keys of the library: names without folders, read without regard to case. *)
Definition key (r : res) : list N := map (StringSpec.fold true) (enc16 (r_name r)).

Lemma import_walk o : forall fs buf cur st fuel, walk (S (List.length fs)) buf cur = ZOk (map fst fs) -> (forall n d, In (n, d) fs -> get_file o buf n = ZOk (Some d)) -> (List.length fs < fuel)%nat ->
  forall st', (fix go fs st := match fs with [] => ZOk st | (n, d) :: r => do! s <- handle st n d; go r s end) fs st = ZOk st' -> import o fuel buf cur st = ZOk st'.
Proof.
  induction fs as [|(n, d) fs IH]; intros buf cur st fuel W G L st' H; (destruct fuel as [|fuel]; [cbn in L; lia|]); cbn [import].
  - cbn [walk List.length map] in W. destruct (next_file buf cur) as [[n|]| | | |]; cbn [zbind] in *; try discriminate W. exact H.
  - change (S (List.length ((n, d) :: fs))) with (S (S (List.length fs))) in W. remember (S (List.length fs)) as k eqn:K. cbn [walk map fst] in W. destruct (next_file buf cur) as [[m|]| | | |]; cbn [zbind] in *; try discriminate W.
    destruct (walk k buf m) as [ns| | | |] eqn:WW; cbn [zbind] in W; try discriminate W. apply ZOk_inj in W. injection W as -> ->. rewrite (G n d (or_introl eq_refl)). cbn [zbind]. destruct (handle st n d) as [s1| | | |]; cbn [zbind] in *; try discriminate H.
    apply (IH buf n s1 fuel); [exact WW|intros ? ? I; apply G; now right|cbn [List.length] in L; lia|exact H].
Qed.
Lemma enc16_inj_word a b : word a -> word b -> enc16 a = enc16 b -> a = b.
Proof.
  intros A B E. assert (G : forall w, word w -> Forall scalar w) by (intros w; apply Forall_impl; now intros c (H & _)). pose proof (dec16_enc a (G a A)) as DA. rewrite E, (dec16_enc b (G b B)) in DA. now injection DA.
Qed.
Lemma path_text r : enc16 (r_path r) = join 47 (map enc16 (r_folders r)) ++ enc16 (r_name r).
Proof.
  unfold r_path. rewrite enc16_app. f_equal. induction (r_folders r) as [|c cs IH]; [reflexivity|]. cbn [map flat_map]. unfold join. cbn [flat_map]. fold (join 47 (map enc16 cs)). now rewrite !enc16_app, IH.
Qed.
Lemma enc16_1_no b c : scalar b -> c < 55296 -> b <> c -> ~ In c (enc16_1 b).
Proof.
  intros S L N. unfold enc16_1. generalize ((b - 65536) / 1024) ((b - 65536) mod 1024). intros x y. destruct (b <? 65536); cbn [In]; repeat (intros [E|E]; [clear -L N E; lia|revert E]); intros [].
Qed.
Lemma enc16_no c w : word w -> c < 55296 -> ~ In c w -> ~ In c (enc16 w).
Proof.
  intros W L N I. unfold enc16 in I. apply in_flat_map in I as (b & I & J). unfold word in W. rewrite Forall_forall in W. destruct (W b I) as (S & _). apply (enc16_1_no b c S L); [|exact J]. intros ->. now apply N.
Qed.
Lemma enc16_ne w : w <> [] -> enc16 w <> [].
Proof. destruct w as [|c w]; [congruence|]. intros _. rewrite enc16_cons. unfold enc16_1. destruct (c <? 65536); discriminate. Qed.
Lemma word_no92 w : word w -> ~ In 92 w.
Proof. intros W I. unfold word in W. rewrite Forall_forall in W. destruct (W 92 I) as (_ & _ & N). now apply N. Qed.
Lemma path_word r : res_ok r -> word (r_path r).
Proof.
  intros (A & B & _). unfold r_path. apply word_app. split; [|exact B]. induction A as [|c cs (W & _) _ IH]; [constructor|]. cbn [flat_map]. apply word_app. split; [|exact IH]. apply word_app. split; [exact W|]. constructor; [|constructor]. unfold letter, scalar. lia.
Qed.
Lemma path_split r : res_ok r -> snd (gdtf_split (enc16 (r_path r))) = enc16 (r_name r).
Proof.
  intros R. assert (PW := path_word r R). destruct R as (A & B & C). rewrite (gdtf_split_ok _ (map enc16 (r_folders r)) (enc16 (r_name r))); [reflexivity|]. split; [|split].
  - rewrite slashes_id; [apply path_text|]. apply not_in_forall. apply enc16_no; [exact PW|lia|now apply word_no92].
  - apply Forall_map. eapply Forall_impl; [|exact A]. intros c (W & N & S). split; [now apply enc16_ne|]. apply enc16_no; [exact W|lia|exact S].
  - intros I. contradiction (enc16_no 47 _ B ltac:(lia) C I).
Qed.
Lemma desc_bytes r : res_ok r -> beq_bytes (enc8 (r_path r)) (T"description.xml") = is_desc r.
Proof.
  intros R. unfold is_desc. apply eq_true_iff_eq. rewrite !beq_bytes_spec. split; intros E; [|rewrite E; apply desc_text].
  rewrite <- (proj2 desc_text) in E. apply enc8_inj in E; [|now apply path_word|exact desc_word]. rewrite (proj1 desc_text) in E.
  assert (G : forall w, Forall (fun c => c < 65536) (enc16 w) -> Forall scalar w -> Forall (fun c => ~ (55296 <= c < 57344)) (enc16 w) -> enc16 w = w).
  { clear. induction w as [|c w IH]; [reflexivity|]. rewrite enc16_cons. intros F S F2. apply Forall_app in F as (_ & F). apply Forall_app in F2 as (F1 & F2). pose proof (Forall_inv S) as S1. pose proof (Forall_inv_tail S) as S2. rewrite IH by assumption. unfold enc16_1 in *. destruct (c <? 65536) eqn:C; [reflexivity|]. exfalso. apply Forall_inv in F1. unfold scalar in S1.
    assert ((c - 65536) / 1024 < 1024) by (apply N.div_lt_upper_bound; clear F1; lia). revert F1 H. generalize ((c - 65536) / 1024). clear. lia. }
  rewrite <- E. symmetry. apply G; [rewrite E; cbn; repeat constructor|exact (Forall_impl _ (fun c => @proj1 _ _) (path_word r R))|rewrite E; cbn; repeat constructor; lia].
Qed.
Definition the_rest (l : list res) : list res := filter (fun r => negb (is_desc r)) l.
Lemma put_new k d m : (forall k' d', In (k', d') m -> txeq k k' = false) -> Permutation (put k d m) ((k, d) :: m).
Proof.
  induction m as [|(k', d') m IH]; intros N; [reflexivity|]. cbn [put]. destruct (txlt k k') eqn:L; [reflexivity|]. destruct (txlt k' k) eqn:L'.
  - rewrite IH by (intros ? ? I; apply (N _ d'0); now right). apply perm_swap.
  - exfalso. assert (E : txeq k k' = true) by (apply C61_ordering; now split). specialize (N k' d' (or_introl eq_refl)). congruence.
Qed.
Definition texts (l : list res) : list (list N * list N) := map (fun r => (enc16 (r_name r), r_data r)) l.
Lemma import_all l : Forall res_ok l -> NoDup (map key (the_rest l)) -> forall x m,
  (forall r, In r (the_rest l) -> forall k' d', In (k', d') m -> txeq (enc16 (r_name r)) k' = false) ->
  exists y m', (fix go fs st := match fs with [] => ZOk st | (n, d) :: r => do! s <- handle st n d; go r s end) (as_bytes (entries l)) (x, m) = ZOk (y, m') /\
    Permutation m' (texts (the_rest l) ++ m) /\ (forall d, (forall r, In r l -> is_desc r = true -> r_data r = d) -> y = if existsb is_desc l then Some d else x).
Proof.
  induction 1 as [|r l R _ IH]; intros D x m N.
  - exists x, m. repeat split; reflexivity.
  - cbn [entries as_bytes map fst snd]. fold (entries l). fold (as_bytes (entries l)). unfold handle at 1. rewrite (desc_bytes r R). cbn [the_rest filter existsb] in *. destruct (is_desc r) eqn:E; cbn [negb zbind fst snd orb] in *.
    + fold (the_rest l) in *. destruct (IH D (Some (r_data r)) m N) as (y & m' & H & P & Y). exists y, m'. split; [exact H|]. split; [exact P|]. intros d Hd. rewrite (Y d ltac:(intros; apply Hd; [now right|assumption])). destruct (existsb is_desc l); [reflexivity|]. now rewrite (Hd r (or_introl eq_refl) E).
    + fold (the_rest l) in *. rewrite (proj2 (word_bytes _ (path_word r R))). cbn [zbind]. rewrite (path_split r R). cbn [map] in D. inversion_clear D as [|? ? D1 D2].
      assert (PN := put_new (enc16 (r_name r)) (r_data r) m (N r (or_introl eq_refl))).
      destruct (IH D2 x (put (enc16 (r_name r)) (r_data r) m)) as (y & m' & H & P & Y).
      * intros r' I k' d' J. apply (Permutation_in _ PN) in J as [J|J]; [|apply (N r' (or_intror I) k' d' J)]. injection J as <- <-. destruct (txeq _ _) eqn:TE; [|reflexivity]. exfalso. apply D1. apply C34_equality in TE. apply in_map_iff. exists r'. split; [exact TE|exact I].
      * exists y, m'. split; [exact H|]. split; [|intros d Hd; apply Y; intros; apply Hd; [now right|assumption]]. rewrite P, PN. cbn [texts map app]. fold (texts (the_rest l)). symmetry. apply Permutation_middle.
Qed.
(** Where a resource is written to. *)
Inductive goes_to : list N -> list N -> Prop :=
| to_3ds a : goes_to (a ++ T"3ds") (T"models/3ds/" ++ a ++ T"3ds")
| to_svg a : goes_to (a ++ T"svg") (T"models/svg/" ++ a ++ T"svg")
| to_glb a : goes_to (a ++ T"glb") (T"models/gltf/" ++ a ++ T"glb").
(** Room for what is written. *)
Definition weight (l : list res) : N := fold_right (fun r s => 100 + 2 * nlen (enc8 (r_name r)) + nlen (r_data r) + s) 0 l.
Definition roomy (l : list res) (d : list N) : Prop :=
  Forall (fun r => nlen (enc8 (r_name r)) <= 1000) l /\ nlen l < 19279 /\ weight l + 128 + nlen d < 101010256.

Lemma ends_not s t : ends_with s t = false <-> ~ exists a, s = a ++ t.
Proof. rewrite <- C37_ends_with. destruct (ends_with s t); split; intros; congruence. Qed.
Lemma app3 (a b : list N) x y z x' y' z' : a ++ [x; y; z] = b ++ [x'; y'; z'] -> a = b /\ x = x' /\ y = y' /\ z = z'.
Proof.
  intros E. change [x; y; z] with ([x] ++ [y] ++ [z]) in E. change [x'; y'; z'] with ([x'] ++ [y'] ++ [z']) in E. rewrite !app_assoc in E.
  apply app_inj_tail in E as (E & Z). apply app_inj_tail in E as (E & Y). apply app_inj_tail in E as (E & X). now repeat split.
Qed.
Lemma mesh_goes w n : mesh w = Some n <-> goes_to w n.
Proof.
  split.
  - unfold mesh. destruct (ends_with w (T"glb")) eqn:A; [apply C37_ends_with in A as (a & ->); intros [= <-]; apply to_glb|]. destruct (ends_with w (T"svg")) eqn:B; [apply C37_ends_with in B as (a & ->); intros [= <-]; apply to_svg|].
    destruct (ends_with w (T"3ds")) eqn:C; [apply C37_ends_with in C as (a & ->); intros [= <-]; apply to_3ds|discriminate].
  - intros G. unfold mesh. destruct G as [a|a|a].
    + rewrite (proj2 (ends_not _ (T"glb"))), (proj2 (ends_not _ (T"svg"))), (proj2 (C37_ends_with _ (T"3ds")) (ex_intro _ a eq_refl)); [reflexivity| |]; intros (b & E); apply app3 in E as (_ & E & _); discriminate E.
    + rewrite (proj2 (ends_not _ (T"glb"))), (proj2 (C37_ends_with _ (T"svg")) (ex_intro _ a eq_refl)); [reflexivity|]. intros (b & E). apply app3 in E as (_ & E & _). discriminate E.
    + rewrite (proj2 (C37_ends_with _ (T"glb")) (ex_intro _ a eq_refl)). reflexivity.
Qed.
Lemma enc16_last w a c : word w -> c < 55296 -> enc16 w = a ++ [c] -> exists w', w = w' ++ [c] /\ enc16 w' = a.
Proof.
  intros W L. induction w as [|x w _] using rev_ind; [destruct a; discriminate|]. rewrite enc16_app. cbn [enc16 flat_map]. rewrite app_nil_r. apply word_app in W as (_ & W). apply Forall_inv in W as (S & _). unfold scalar in S. unfold enc16_1. destruct (x <? 65536) eqn:X; intros E.
  - apply app_inj_tail in E as (E & <-). exists w. now split.
  - exfalso. revert E. generalize ((x - 65536) / 1024) ((x - 65536) mod 1024). intros p q E. change [55296 + p; 56320 + q] with ([55296 + p] ++ [56320 + q]) in E. rewrite app_assoc in E. apply app_inj_tail in E as (_ & E). clear -E L. lia.
Qed.
Lemma enc16_ends w x y z : word w -> x < 128 -> y < 128 -> z < 128 -> ends_with (enc16 w) [x; y; z] = ends_with w [x; y; z].
Proof.
  intros W X Y Z. apply eq_true_iff_eq. rewrite !C37_ends_with. split.
  - intros (a & E). change [x; y; z] with ([x] ++ [y] ++ [z]) in E. rewrite !app_assoc in E. apply enc16_last in E as (w1 & -> & E); [|exact W|lia]. apply word_app in W as (W & _).
    apply enc16_last in E as (w2 & -> & E); [|exact W|lia]. apply word_app in W as (W & _). apply enc16_last in E as (w3 & -> & E); [|exact W|lia]. exists w3. now rewrite <- !app_assoc.
  - intros (a & ->). exists (enc16 a). rewrite enc16_app. f_equal. apply enc16_ascii. repeat constructor; assumption.
Qed.
Lemma mesh_text w : word w -> mesh (enc16 w) = option_map enc16 (mesh w).
Proof.
  intros W. unfold mesh. change (T"glb") with [103; 108; 98]. change (T"svg") with [115; 118; 103]. change (T"3ds") with [51; 100; 115]. rewrite !enc16_ends by (assumption || lia).
  assert (A : forall k, enc16 (sub_folder k ++ w) = sub_folder k ++ enc16 w) by (intros k; rewrite enc16_app; f_equal; apply enc16_ascii, folder_ascii).
  destruct (ends_with w [103; 108; 98]); [cbn [option_map]; now rewrite A|]. destruct (ends_with w [115; 118; 103]); [cbn [option_map]; now rewrite A|]. destruct (ends_with w [51; 100; 115]); [cbn [option_map]; now rewrite A|reflexivity].
Qed.
Definition moved (l : list res) : list (list N * list N) := flat_map (fun r => match mesh (r_name r) with Some n => [(n, r_data r)] | None => [] end) l.
Lemma moved_text l : Forall res_ok l -> meshes (texts l) = as_text (moved l).
Proof.
  induction 1 as [|r l (_ & W & _) _ IH]; [reflexivity|]. unfold meshes, texts, moved, as_text. cbn [map flat_map fst snd]. rewrite (mesh_text _ W), map_app. f_equal; [|exact IH]. destruct (mesh (r_name r)); reflexivity.
Qed.
Lemma moved_in n x l : In (n, x) (moved l) <-> exists r, In r l /\ goes_to (r_name r) n /\ r_data r = x.
Proof.
  unfold moved. rewrite in_flat_map. split.
  - intros (r & I & J). exists r. split; [exact I|]. destruct (mesh (r_name r)) as [m|] eqn:M; [|destruct J]. destruct J as [J|[]]. injection J as -> ->. split; [now apply mesh_goes|reflexivity].
  - intros (r & I & G & <-). exists r. split; [exact I|]. apply mesh_goes in G. rewrite G. now left.
Qed.
Lemma goes_word w n : word w -> goes_to w n -> word n /\ 11 <= nlen (enc8 n) <= nlen (enc8 w) + 12.
Proof.
  intros W G. destruct G as [a|a|a]; (split; [apply word_app; split; [|exact W]|rewrite enc8_app, nlen_app]).
  - apply (folder_word Model3DS).
  - rewrite enc8_ascii by apply (folder_ascii Model3DS). change (nlen (T"models/3ds/")) with 11. lia.
  - apply (folder_word ModelSVG).
  - rewrite enc8_ascii by apply (folder_ascii ModelSVG). change (nlen (T"models/svg/")) with 11. lia.
  - apply (folder_word ModelGLTF).
  - rewrite enc8_ascii by apply (folder_ascii ModelGLTF). change (nlen (T"models/gltf/")) with 12. lia.
Qed.
Lemma goes_inj w w' n : goes_to w n -> goes_to w' n -> w = w'.
Proof.
  enough (H : forall n', goes_to w n -> goes_to w' n' -> n = n' -> w = w') by (intros G G'; exact (H n G G' eq_refl)).
  intros n' G G' E. destruct G as [a|a|a], G' as [b|b|b]; try discriminate E; now apply app_inv_head in E.
Qed.
Lemma weight_perm l l' : Permutation l l' -> weight l = weight l'.
Proof. induction 1 as [|r l l' _ IH|r r' l|l l' l'' _ IH _ IH']; unfold weight in *; cbn [fold_right]; lia. Qed.
Lemma moved_size l d : Forall res_ok l -> roomy l d -> small (as_bytes ((T"description.xml", d) :: moved l)).
Proof.
  intros R (A & B & C). assert (D : forall e, In e (moved l) -> exists r, In r l /\ goes_to (r_name r) (fst e)) by (intros (n & x) I; apply moved_in in I as (r & I & G & _); exists r; now split).
  unfold as_bytes. cbn [map fst snd]. rewrite (proj2 desc_text). split; [|split].
  - constructor; [cbn; lia|]. apply Forall_map, Forall_forall. intros e I. destruct (D e I) as (r & J & G). cbn [fst]. rewrite Forall_forall in A, R. specialize (A r J). destruct (R r J) as (_ & W & _). destruct (goes_word _ _ W G) as (W' & L). lia.
  - rewrite nlen_cons, nlen_map. enough (nlen (moved l) <= nlen l) by lia. clear. induction l as [|r l IH]; [reflexivity|]. unfold moved in *. cbn [flat_map]. rewrite nlen_app, nlen_cons. destruct (mesh (r_name r)); [rewrite nlen_cons|]; change (nlen []) with 0; lia.
  - cbn [fold_right fst snd]. change (nlen (T"description.xml")) with 15. enough (fold_right (fun e s => 76 + 2 * nlen (fst e) + nlen (snd e) + s) 22 (map (fun e => (enc8 (fst e), snd e)) (moved l)) <= weight l + 22) by lia. clear -R. induction R as [|r l (_ & W & _) _ IH]; [reflexivity|]. unfold moved, weight in *. cbn [flat_map fold_right]. rewrite map_app.
    destruct (mesh (r_name r)) as [n|] eqn:M; cbn [map app fold_right fst snd]; [|lia]. apply mesh_goes in M. destruct (goes_word _ _ W M) as (_ & L). lia.
Qed.
Lemma key_nodup l : NoDup (map key l) -> NoDup (map fst (moved l)).
Proof.
  induction l as [|r l IH]; [constructor|]. cbn [map]. intros D. inversion_clear D as [|? ? D1 D2]. unfold moved. cbn [flat_map]. fold (moved l). destruct (mesh (r_name r)) as [n|] eqn:M; cbn [app map fst]; [|now apply IH]. constructor; [|now apply IH].
  intros I. apply in_map_iff in I as ((n' & x) & E & I). cbn [fst] in E. subst n'. apply moved_in in I as (r' & I & G & _). apply mesh_goes in M. pose proof (goes_inj _ _ _ M G) as E. apply D1. apply in_map_iff. exists r'. split; [unfold key; now rewrite E|exact I].
Qed.
(** Which entries the archive has after a fixture is read and saved again. *)
Theorem C107_again o clk again blank fuel s b l d : names_ok o -> holds o b (as_bytes (entries l)) -> Forall res_ok l -> (List.length l < fuel)%nat ->
  (forall r, In r l -> r_path r = T"description.xml" -> r_data r = d) -> In (T"description.xml", d) (entries l) -> NoDup (map key (the_rest l)) -> roomy (the_rest l) (again d) ->
  exists s' fs, steps o clk again blank fuel [Load b; Refresh] s = ZOk ([NoError; NoError], s') /\ holds o (s_buf s') (as_bytes fs) /\ NoDup (map fst fs) /\
    forall n x, In (n, x) fs <-> (n = T"description.xml" /\ x = again d) \/ exists r, In r l /\ r_path r <> T"description.xml" /\ goes_to (r_name r) n /\ r_data r = x.
Proof.
  intros O (HW & HG) R F Hd Id K S.
  destruct (import_all l R K None [] ltac:(intros ? ? ? ? [])) as (y & m & GO & P & Y). rewrite app_nil_r in P.
  specialize (Y d ltac:(intros r I E; apply Hd; [exact I|now apply beq_bytes_spec])). replace (existsb is_desc l) with true in Y.
  2:{ symmetry. apply existsb_exists. unfold entries in Id. apply in_map_iff in Id as (r & E & I). exists r. split; [exact I|]. apply beq_bytes_spec. congruence. }
  assert (LE : List.length (as_bytes (entries l)) = List.length l) by (unfold as_bytes, entries; now rewrite !map_length).
  pose proof (import_walk o _ b [] (None, []) fuel HW HG ltac:(lia) _ GO) as IM.
  apply Permutation_sym in P. unfold texts in P. destruct (Permutation_map_inv _ _ (Permutation_sym P)) as (rs & -> & PR). fold (texts rs) in *.
  assert (RR : Forall res_ok rs) by (eapply Permutation_Forall; [apply PR|]; apply Forall_forall; intros r I; apply filter_In in I as (I & _); rewrite Forall_forall in R; now apply R).
  assert (SS : roomy rs (again d)). { destruct S as (S1 & S2 & S3). split; [eapply Permutation_Forall; [apply PR|exact S1]|]. rewrite <- (weight_perm _ _ PR). split; [|exact S3]. unfold nlen in *. now rewrite <- (Permutation_length PR). }
  assert (KK : NoDup (map key rs)) by (eapply Permutation_NoDup; [apply Permutation_map, PR|exact K]).
  set (fs := (T"description.xml", again d) :: moved rs).
  assert (ND : NoDup (map fst fs)). { unfold fs. cbn [map fst]. constructor; [|now apply key_nodup]. intros I. apply in_map_iff in I as ((n & x) & E & I). cbn [fst] in E. subst n. apply moved_in in I as (r & _ & G & _). inversion G. }
  assert (WF : Forall (fun e => word (fst e)) fs). { constructor; [exact desc_word|]. apply Forall_forall. intros (n & x) I. apply moved_in in I as (r & I & G & _). rewrite Forall_forall in RR. destruct (RR r I) as (_ & W & _). now apply (goes_word _ _ W G). }
  destruct (written o clk fs O WF (moved_size _ _ RR SS)) as (buf & AD & H).
  refine (ex_intro _ (mkSt (Some (mkFx (again d) (texts rs))) (Some (buf, false)) [] buf) (ex_intro _ fs _)). split; [|split; [|split]].
  - cbn [steps step]. rewrite IM. cbn [zbind fst snd]. rewrite Y. cbn [zbind s_fix s_added]. unfold export. cbn [fx_desc fx_files]. rewrite app_nil_r, (moved_text _ RR). unfold fs, as_text in AD. cbn [map fst snd] in AD. rewrite (proj1 desc_text) in AD. unfold as_text. unfold zip, zbytes in *. rewrite AD. reflexivity.
  - cbn [s_buf]. rewrite firsts_id in H; [exact H|]. unfold as_bytes. rewrite map_map. cbn [fst]. clear -ND WF. induction fs as [|e fs IH]; [constructor|]. cbn [map] in *. inversion_clear ND as [|? ? N1 N2]. inversion_clear WF as [|? ? W1 W2]. constructor; [|now apply IH].
    intros I. apply in_map_iff in I as (e' & E & I). apply N1. apply in_map_iff. exists e'. split; [|exact I]. rewrite Forall_forall in W2. apply enc8_inj in E; [|now apply W2|exact W1]. now apply enc16_inj_word; [apply W2| |].
  - exact ND.
  - intros n x. unfold fs. cbn [In]. rewrite moved_in. split.
    + intros [E|(r & I & G & E)]; [injection E as <- <-; now left|]. right. exists r. apply (Permutation_in _ (Permutation_sym PR)) in I. apply filter_In in I as (I & N). repeat split; try assumption. intros Q. apply beq_bytes_spec in Q. unfold is_desc in N. rewrite Q in N. discriminate.
    + intros [(-> & ->)|(r & I & N & G & E)]; [now left|]. right. exists r. repeat split; try assumption. apply (Permutation_in _ PR), filter_In. split; [exact I|]. unfold is_desc. destruct (beq_bytes _ _) eqn:B; [|reflexivity]. now apply beq_bytes_spec in B.
Qed.
(** Models that lie in their folders are kept. *)
Corollary C107_kept o clk again blank fuel s b l d : names_ok o -> holds o b (as_bytes (entries l)) -> Forall res_ok l -> (List.length l < fuel)%nat ->
  (forall r, In r l -> r_path r = T"description.xml" -> r_data r = d) -> In (T"description.xml", d) (entries l) -> NoDup (map key (the_rest l)) -> roomy (the_rest l) (again d) ->
  exists s', steps o clk again blank fuel [Load b; Refresh] s = ZOk ([NoError; NoError], s') /\ get_file o (s_buf s') (T"description.xml") = ZOk (Some (again d)) /\
    (forall a x, In (mkRes [T"models"; T"3ds"] (a ++ T"3ds") x) l -> get_file o (s_buf s') (enc8 (T"models/3ds/" ++ a ++ T"3ds")) = ZOk (Some x)) /\
    (forall a x, In (mkRes [T"models"; T"svg"] (a ++ T"svg") x) l -> get_file o (s_buf s') (enc8 (T"models/svg/" ++ a ++ T"svg")) = ZOk (Some x)) /\
    (forall a x, In (mkRes [T"models"; T"gltf"] (a ++ T"glb") x) l -> get_file o (s_buf s') (enc8 (T"models/gltf/" ++ a ++ T"glb")) = ZOk (Some x)).
Proof.
  intros O H R F Hd Id K S. destruct (C107_again o clk again blank fuel s b l d O H R F Hd Id K S) as (s' & fs & RUN & (_ & HG) & _ & M). exists s'. split; [exact RUN|].
  assert (G : forall n x, In (n, x) fs -> get_file o (s_buf s') (enc8 n) = ZOk (Some x)) by (intros n x I; apply HG; unfold as_bytes; apply in_map_iff; exists (n, x); now split).
  split; [rewrite <- (proj2 desc_text); apply G, M; now left|]. repeat split; intros a x I; apply G, M; right; (eexists; split; [exact I|]; split; [discriminate|]; split; [|reflexivity]); constructor.
Qed.
(** Nothing else is. *)
Corollary C107_only o clk again blank fuel s b l d : names_ok o -> holds o b (as_bytes (entries l)) -> Forall res_ok l -> (List.length l < fuel)%nat ->
  (forall r, In r l -> r_path r = T"description.xml" -> r_data r = d) -> In (T"description.xml", d) (entries l) -> NoDup (map key (the_rest l)) -> roomy (the_rest l) (again d) ->
  exists s' ns, steps o clk again blank fuel [Load b; Refresh] s = ZOk ([NoError; NoError], s') /\ walk (S (List.length ns)) (s_buf s') [] = ZOk ns /\
    Forall (fun n => n = T"description.xml" \/ exists p a, In p [T"models/3ds/"; T"models/svg/"; T"models/gltf/"] /\ n = p ++ a) ns.
Proof.
  intros O H R F Hd Id K S. destruct (C107_again o clk again blank fuel s b l d O H R F Hd Id K S) as (s' & fs & RUN & (HW & _) & _ & M). exists s', (map fst (as_bytes fs)). split; [exact RUN|]. rewrite map_length. split; [exact HW|].
  apply Forall_forall. intros n I. unfold as_bytes in I. rewrite map_map in I. apply in_map_iff in I as ((m & x) & <- & I). cbn [fst]. apply M in I as [(-> & _)|(r & _ & _ & G & _)]; [left; apply desc_text|]. right.
  destruct G as [a|a|a]; (eexists _, (enc8 (a ++ _)); split; [|rewrite enc8_app; f_equal; apply enc8_ascii; cbn; repeat constructor]); cbn [In]; auto.
Qed.
(** A new fixture that is saved again after it was closed: then everything gets into the file. *)
Theorem C106_refresh o clk again blank fuel s d cs cs' : names_ok o -> Forall edit cs -> Forall edit cs' -> Forall (fun e => word (fst e)) (added (cs ++ cs')) ->
  small (as_bytes (added cs ++ [(T"description.xml", described d cs)])) -> small (as_bytes ((T"description.xml", described d (cs ++ cs')) :: added (cs ++ cs'))) ->
  exists s', steps o clk again blank fuel (Open d :: map spelled cs ++ Close :: map spelled cs' ++ [Refresh]) s = ZOk (repeat NoError (3 + List.length (cs ++ cs')), s') /\
    holds o (s_buf s') (firsts (as_bytes ((T"description.xml", described d (cs ++ cs')) :: added (cs ++ cs')))).
Proof.
  intros O E E' W S S'.
  assert (AP : added (cs ++ cs') = added cs ++ added cs') by (unfold added; apply flat_map_app). assert (WC : Forall (fun e => word (fst e)) (added cs)) by (rewrite AP in W; apply Forall_app in W; tauto).
  set (l := added cs ++ _) in S. assert (WL : Forall (fun e => word (fst e)) l) by (apply Forall_app; split; [exact WC|constructor; [exact desc_word|constructor]]).
  destruct (written o clk l O WL S) as (buf & R & _). unfold as_text, l in R. rewrite map_app in R. fold (as_text (added cs)) in R. cbn [map fst snd] in R. rewrite (proj1 desc_text) in R. destruct (adds_prefix _ _ _ _ _ _ R) as (z1 & R1 & R2).
  set (l' := _ :: added (cs ++ cs')) in S'. assert (WL' : Forall (fun e => word (fst e)) l') by (constructor; [exact desc_word|exact W]).
  destruct (written o clk l' O WL' S') as (buf' & R' & H'). unfold as_text, l' in R'. cbn [map fst snd] in R'. rewrite (proj1 desc_text) in R'. fold (as_text (added (cs ++ cs'))) in R'.
  cbn [steps step zbind]. rewrite steps_app. pose proof (edits_run o clk again blank fuel cs E (mkFx d []) ([], true) [] (s_buf s) z1 R1) as ER. unfold zip, zbytes in *. rewrite ER. cbn [zbind steps step s_fix s_zip fx_files fx_desc s_added]. unfold export at 1. cbn [fx_desc fx_files meshes flat_map]. rewrite R2. cbn [zbind fst].
  rewrite steps_app. assert (CL : forall k z, snd z = false -> adds o clk z k = ZOk z) by (induction k as [|(n, x) k IH]; intros z Z; [reflexivity|]; cbn [adds]; unfold add1; rewrite Z; cbn [zbind]; now apply IH).
  pose proof (edits_run o clk again blank fuel cs' E' (mkFx (described d cs) []) (buf, false) ([] ++ as_text (added cs)) buf (buf, false) (CL _ (buf, false) eq_refl)) as ER'. unfold zip, zbytes in *. rewrite ER'. cbn [zbind steps step s_fix s_zip fx_files fx_desc s_added]. unfold export. cbn [fx_desc fx_files meshes flat_map app].
  replace (as_text (added cs) ++ as_text (added cs')) with (as_text (added (cs ++ cs'))) by (rewrite AP; unfold as_text; now rewrite map_app).
  replace (described (described d cs) cs') with (described d (cs ++ cs')) by (unfold described; now rewrite fold_left_app). rewrite R'. cbn [zbind fst].
  refine (ex_intro _ (mkSt _ _ _ buf') _). split; [|exact H']. cbn [Nat.add repeat]. do 3 f_equal. rewrite app_length. clear.
  assert (P : forall a, repeat NoError a ++ [NoError] = NoError :: repeat NoError a) by (induction a as [|a IH]; [reflexivity|]; cbn [repeat app]; now rewrite IH). rewrite P. induction (List.length cs) as [|n IH]; [reflexivity|]. cbn [repeat app Nat.add]. now rewrite IH.
Qed.
(** Reading a file and saving it again loses or mixes up resources. *)
Definition archive (l : list res) : zbytes := match adds ZipProps.plain clk0 ([], true) (as_text (entries l)) with ZOk (b, _) => b | _ => [] end.
Definition a_desc : res := mkRes [] (T"description.xml") [60].
Definition a_model : res := mkRes [T"models"; T"3ds"] (T"a.3ds") [1].
(** A wheel image is lost. *)
Theorem C107_wheel_refuted : exists l s' n x, Forall res_ok l /\ NoDup (map key l) /\ holds ZipProps.plain (archive l) (as_bytes (entries l)) /\ In (n, x) (entries l) /\
  run0 [Load (archive l); Refresh] fresh = ZOk ([NoError; NoError], s') /\ file_info ZipProps.plain (s_buf s') (enc8 n) = ZOk None.
Proof.
  exists [a_desc; mkRes [T"wheels"] (T"open.png") [1]]. eexists _, (T"wheels/open.png"), [1]. split; [|split; [|split; [|split; [|split]]]].
  - unfold res_ok, word, letter, scalar. cbn. repeat constructor; try discriminate; try lia; cbn; lia.
  - vm_compute. repeat constructor; cbn; intuition discriminate.
  - split; [vm_compute; reflexivity|]. intros n d [E|[E|[]]]; injection E as <- <-; vm_compute; reflexivity.
  - cbn. auto.
  - vm_compute. reflexivity.
  - vm_compute. reflexivity.
Qed.
(** The coarse model takes the place of the normal one. *)
Theorem C107_low_refuted : exists l s', Forall res_ok l /\ holds ZipProps.plain (archive l) (as_bytes (entries l)) /\ get_file ZipProps.plain (archive l) (T"models/3ds/a.3ds") = ZOk (Some [1]) /\
  run0 [Load (archive l); Refresh] fresh = ZOk ([NoError; NoError], s') /\ get_file ZipProps.plain (s_buf s') (T"models/3ds/a.3ds") = ZOk (Some [2]).
Proof.
  exists [a_desc; a_model; mkRes [T"models"; T"3ds_low"] (T"a.3ds") [2]]. eexists. split; [|split; [|split; [|split]]].
  - unfold res_ok, word, letter, scalar. cbn. repeat constructor; try discriminate; try lia; cbn; lia.
  - split; [vm_compute; reflexivity|]. intros n d [E|[E|[E|[]]]]; injection E as <- <-; vm_compute; reflexivity.
  - vm_compute. reflexivity.
  - vm_compute. reflexivity.
  - vm_compute. reflexivity.
Qed.
(** So do names that differ only in case. *)
Theorem C107_case_refuted : exists l s', Forall res_ok l /\ holds ZipProps.plain (archive l) (as_bytes (entries l)) /\ get_file ZipProps.plain (archive l) (T"models/3ds/a.3ds") = ZOk (Some [1]) /\
  run0 [Load (archive l); Refresh] fresh = ZOk ([NoError; NoError], s') /\ get_file ZipProps.plain (s_buf s') (T"models/3ds/a.3ds") = ZOk (Some [2]).
Proof.
  exists [a_desc; a_model; mkRes [T"models"; T"3ds"] (T"A.3ds") [2]]. eexists. split; [|split; [|split; [|split]]].
  - unfold res_ok, word, letter, scalar. cbn. repeat constructor; try discriminate; try lia; cbn; lia.
  - split; [vm_compute; reflexivity|]. intros n d [E|[E|[E|[]]]]; injection E as <- <-; vm_compute; reflexivity.
  - vm_compute. reflexivity.
  - vm_compute. reflexivity.
  - vm_compute. reflexivity.
Qed.
Definition some_res : list res := [a_desc; a_model; mkRes [T"models"; T"gltf"] (T"a.glb") [2; 3]; mkRes [T"models"; T"svg"] [8364; 115; 118; 103] [4]; mkRes [T"wheels"] (T"open.png") [5]].
Example C107_case : Forall res_ok some_res /\ NoDup (map key (the_rest some_res)) /\ holds ZipProps.plain (archive some_res) (as_bytes (entries some_res)) /\ roomy (the_rest some_res) [60] /\
  In (T"description.xml", [60]) (entries some_res) /\ (forall r, In r some_res -> r_path r = T"description.xml" -> r_data r = [60]).
Proof.
  split; [|split; [|split; [|split; [|split]]]].
  - unfold res_ok, word, letter, scalar. cbn. repeat constructor; try discriminate; try lia; cbn; lia.
  - vm_compute. repeat constructor; cbn; intuition discriminate.
  - split; [vm_compute; reflexivity|]. intros n d [E|[E|[E|[E|[E|[]]]]]]; injection E as <- <-; vm_compute; reflexivity.
  - split; [|split; vm_compute; reflexivity]. apply Forall_forall. intros r I. apply filter_In in I as ([<-|[<-|[<-|[<-|[<-|[]]]]]] & _); vm_compute; discriminate.
  - cbn. auto.
  - intros r [<-|[<-|[<-|[<-|[<-|[]]]]]] E; try discriminate E. reflexivity.
Qed.
Print Assumptions C106_new. Print Assumptions C106_all. Print Assumptions C106_refresh. Print Assumptions C106_twice_refuted. Print Assumptions C106_description_refuted. Print Assumptions C106_later_refuted.
Print Assumptions C107_again. Print Assumptions C107_kept. Print Assumptions C107_only. Print Assumptions C107_wheel_refuted. Print Assumptions C107_low_refuted. Print Assumptions C107_case_refuted.
