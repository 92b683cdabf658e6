(** Lemmas for C07: specification of acceptable payloads, and safety of the decoder on them. *)
From Coq Require Import List NArith ZArith String Lia Bool Sorting.
From Coq Require Import ZifyN ZifyNat ZifyBool.
From Verif Require Import Bytes BytesProofs Txt NumModel NumProofs UtfSpec UtfModel UtfProofs UuidModel UuidProps ConvModel ConvProps ConvProps3.
From Verif Require Import JsonModel JsonProofs JsonParse JsonProps MessageModel MessageProofs MessageProps.
Import ListNotations.
Open Scope N_scope.
Ltac Zify.zify_post_hook ::= Z.div_mod_to_equations.

(** Documents the fields can hold: no fractions, no text of 1024 bytes or more. *)
Definition modest (v : json) : Prop := no_float v /\ forall s, text_in s v -> nlen s < 1024.
(** The keys the decoder reads, by message type. *)
Definition has_keys (ks : list (list N)) (v : json) : Prop :=
  match v with JObj o => forall k, In k ks -> obj_get o k <> None | _ => True end.
Definition commit_keys := [T"Comment"; T"verMajor"; T"verMinor"; T"FileSize"; T"FileName"; T"FileUUID"; T"StationUUID"; T"ForStationsUUID"].
Definition ret_keys := [T"OK"; T"Message"].
Definition join_keys := [T"verMajor"; T"verMinor"; T"Provider"; T"StationName"; T"StationUUID"; T"Commits"].
Definition join_complete (o : list (list N * json)) : Prop := has_keys join_keys (JObj o)
  /\ forall cs c, obj_get o (T"Commits") = Some cs -> In c (elements cs) -> has_keys commit_keys c.
Definition complete (t : list N) (o : list (list N * json)) : Prop :=
  (t = T"MVR_JOIN" -> join_complete o)
  /\ (t = T"MVR_JOIN_RET" -> join_complete o /\ has_keys ret_keys (JObj o))
  /\ (t = T"MVR_COMMIT" -> has_keys commit_keys (JObj o))
  /\ (t = T"MVR_REQUEST" -> has_keys [T"FileUUID"; T"FromStationUUID"] (JObj o))
  /\ (In t [T"MVR_COMMIT_RET"; T"MVR_REQUEST_RET"; T"MVR_LEAVE_RET"] -> has_keys ret_keys (JObj o)).
(** All texts of a message fit their fields. *)
Definition commit_fits (c : commit) : Prop := nlen (cFileName c) < 1024 /\ nlen (cComment c) < 1024.
Definition fits (m : msg) : Prop :=
  nlen (jProvider (mJoin m)) < 1024 /\ nlen (jName (mJoin m)) < 1024 /\ Forall commit_fits (jCommits (mJoin m))
  /\ commit_fits (mCommit m) /\ nlen (mPath m) < 1024 /\ nlen (mError m) < 1024.

Definition outP {S} (P : S -> Prop) (o : out S) : Prop := match o with ORet s => P s | OExc _ s => P s | OBad => False end.
Lemma step_P {A S} (P : S -> Prop) (e : eres A) s k : P s -> e <> EBad -> (forall a, e = EOk a -> outP P (k a)) -> outP P (step e s k).
Proof. intros H1 H2 H3. destruct e; cbn [step]; [now apply H3|exact H1|congruence]. Qed.

Lemma obj_get_in o k v : obj_get o k = Some v -> exists k', In (k', v) o.
Proof.
  induction o as [|[k' v'] o IH]; [discriminate|]. cbn [obj_get]. destruct (str_eqb k k').
  - intros [= <-]. exists k'. now left.
  - intros H. destruct (IH H) as [k2 H2]. exists k2. now right.
Qed.
Lemma modest_get v k x : modest v -> at_key v k = EOk x -> modest x.
Proof.
  destruct v; try discriminate. cbn [at_key]. intros [H1 H2] H. destruct (obj_get m k) eqn:E; [|discriminate]. injection H as ->.
  apply obj_get_in in E as [k' E]. split.
  - cbn [no_float] in H1. induction m as [|[k2 y] m IH]; [destruct E|]. destruct H1 as [Ha Hb]. destruct E as [E|E].
    + injection E as _ ->. exact Ha.
    + apply IH; [exact Hb| |exact E]. intros s Hs. apply H2. inversion Hs; subst; [eapply ti_key; right; eassumption|eapply ti_obj; [right; eassumption|assumption]].
  - intros s Hs. apply H2. eapply ti_obj; eassumption.
Qed.
Lemma modest_elements v x : modest v -> In x (elements v) -> modest x.
Proof.
  intros [H1 H2] H. destruct v; cbn [elements] in H; try (destruct H as [<-|[]]; split; assumption); try contradiction.
  - split; [|intros s Hs; apply H2; eapply ti_arr; eassumption]. cbn [no_float] in H1. clear H2. induction l as [|y l IH]; [destruct H|]. destruct H1 as [Ha Hb].
    destruct H as [<-|H]; [exact Ha|now apply IH].
  - apply in_map_iff in H as ([k y] & Ey & H). cbn [snd] in Ey. subst y. split; [|intros s Hs; apply H2; eapply ti_obj; eassumption].
    cbn [no_float] in H1. clear H2. induction m as [|[k2 y] m IH]; [destruct H|]. destruct H1 as [Ha Hb].
    destruct H as [H|H]; [injection H as _ ->; exact Ha|now apply IH].
Qed.
Lemma upto_nul_le s : nlen (upto_nul s) <= nlen s.
Proof. induction s as [|c s IH]; [apply N.le_refl|]. cbn [upto_nul]. destruct (c =? 0); [rewrite nlen_nil; lia|]. rewrite !nlen_cons. lia. Qed.
Lemma read_uuid_total old s : (exists r, read_mvr_uuid true old s = Ok r) \/ read_mvr_uuid true old s = Exc.
Proof.
  unfold read_mvr_uuid.
  assert (U : exists t, uuid_input s = Ok t).
  { unfold uuid_input. destruct (nlen s =? 47) eqn:E; [|destruct (nlen s =? 36); [eauto|destruct (nlen s =? 0); eauto]].
    rewrite replace1_ok; [cbn [bind]; eauto|]. apply N.eqb_eq in E. rewrite E. reflexivity. }
  destruct U as [t ->]. cbn [bind]. destruct t as [t|]; [|eauto]. destruct (from_string zero_uuid t true) as [[r u]|]; [|now right].
  assert (W : forall i, exists w, word true u i = Some w) by (intros i; unfold word, int_sum; destruct (_ <? _); eauto).
  unfold get_words. destruct (W 0%nat) as [? ->], (W 4%nat) as [? ->], (W 8%nat) as [? ->], (W 12%nat) as [? ->]. left. eauto.
Qed.
Lemma get_uuid_safe old v : get_uuid true old v <> EBad.
Proof.
  unfold get_uuid. destruct v; try discriminate. cbn [get_str ebind]. destruct (set_from_chars s) as [u|]; [|discriminate].
  destruct (read_uuid_total old u) as [[r ->]| -> ]; discriminate.
Qed.
Lemma get_text_safe v : modest v -> get_text v <> EBad.
Proof.
  intros [_ H]. unfold get_text. destruct v; try discriminate. cbn [get_str ebind]. specialize (H s (ti_str s)). pose proof (upto_nul_le s).
  replace (nlen (upto_nul s) <? 1024) with true by lia. discriminate.
Qed.
Lemma get_text_short v t : get_text v = EOk t -> nlen t < 1024.
Proof.
  unfold get_text. destruct v; try discriminate. cbn [get_str ebind]. destruct (nlen (upto_nul s) <? 1024) eqn:E; [|discriminate]. intros [= <-]. lia.
Qed.
Lemma number_safe w v : no_float v -> number_to_uint w v <> EBad.
Proof. destruct v; try discriminate. easy. Qed.
Lemma u32_safe v : no_float v -> get_u32 v <> EBad.
Proof. intros H. destruct v; try discriminate. destruct H. Qed.
Lemma u64_safe v : no_float v -> get_u64 v <> EBad. Proof. apply number_safe. Qed.
Lemma string_number_safe v : no_float v -> string_number v <> EBad.
Proof.
  intros H. unfold string_number. destruct (is_number v); [now apply number_safe|]. destruct v; try discriminate. cbn [get_str ebind].
  unfold stoul. destruct (match skip_space (upto_nul s) with [] => _ | c :: r => _ end) as [neg b]. destruct (fst (span_dec b)); [discriminate|].
  destruct (two64 <=? _); discriminate.
Qed.
Lemma string_bool_safe v : string_bool v <> EBad. Proof. destruct v; discriminate. Qed.
(** A read of a key that is present, or from a value that is no object. *)
Lemma at_bind {A} v k (f : json -> eres A) ks : has_keys ks v -> In k ks -> (forall x, at_key v k = EOk x -> f x <> EBad) -> ebind (at_key v k) f <> EBad.
Proof.
  intros H1 H2 H3. destruct v; try discriminate. cbn [at_key] in *. destruct (obj_get m k) eqn:E; [|now elim (H1 k H2)]. cbn [ebind]. now apply H3.
Qed.
Lemma at_safe v k ks : has_keys ks v -> In k ks -> at_key v k <> EBad.
Proof. intros H1 H2. destruct v; try discriminate. cbn [at_key] in *. destruct (obj_get m k) eqn:E; [discriminate|now elim (H1 k H2)]. Qed.
Lemma bind_ok {A B} (e : eres A) (f : A -> eres B) b : ebind e f = EOk b -> exists a, e = EOk a /\ f a = EOk b.
Proof. destruct e; try discriminate. eauto. Qed.

Lemma stations_P {S} (P : S -> Prop) put k : (forall l, P (put l)) -> (forall l, outP P (k l)) -> forall js l, outP P (read_stations true put l js k).
Proof.
  intros H1 H2. induction js as [|j js IH]; intros l; cbn [read_stations]; [apply H2|].
  apply step_P; [apply H1|apply get_uuid_safe|]. intros a _. apply IH.
Qed.
Ltac in_keys := cbn [In commit_keys join_keys ret_keys]; tauto.
Lemma commit_P p c : modest p -> has_keys commit_keys p -> commit_fits c -> outP commit_fits (commit_from_json true p c).
Proof.
  intros M K [F1 F2]. unfold commit_from_json.
  assert (A : forall {B} k (f : json -> eres B), In k commit_keys -> (forall x, modest x -> f x <> EBad) -> ebind (at_key p k) f <> EBad).
  { intros B k f I H. eapply at_bind; [exact K|exact I|]. intros x Hx. apply H. eapply modest_get; eassumption. }
  apply step_P; [now split|apply A; [in_keys|apply get_text_safe]|]. intros t Ht. apply bind_ok in Ht as (y & _ & Ht). apply get_text_short in Ht. cbv zeta.
  apply step_P; [now split|apply A; [in_keys|intros x [Hx _]; now apply u32_safe]|]. intros v1 _. cbv zeta.
  apply step_P; [now split|apply A; [in_keys|intros x [Hx _]; now apply u32_safe]|]. intros v2 _. cbv zeta.
  apply step_P; [now split|apply A; [in_keys|intros x [Hx _]; now apply u64_safe]|]. intros v3 _. cbv zeta.
  apply step_P; [now split|apply A; [in_keys|apply get_text_safe]|]. intros t2 Ht2. apply bind_ok in Ht2 as (y2 & _ & Ht2). apply get_text_short in Ht2. cbv zeta.
  apply step_P; [now split|apply A; [in_keys|intros x _; apply get_uuid_safe]|]. intros v4 _. cbv zeta.
  apply step_P; [now split|apply A; [in_keys|intros x _; apply get_uuid_safe]|]. intros v5 _. cbv zeta.
  apply step_P; [now split|eapply at_safe; [exact K|in_keys]|]. intros v6 _.
  apply stations_P; intros l; now split.
Qed.

Lemma lift_P (P : msg -> Prop) o put k : outP commit_fits o -> (forall c, commit_fits c -> P (put c)) -> (forall c, commit_fits c -> outP P (k c)) -> outP P (lift_commit o put k).
Proof. destruct o; cbn [outP lift_commit]; auto. Qed.
Lemma commits_P (P : msg -> Prop) put k js : Forall modest js -> Forall (has_keys commit_keys) js ->
  (forall l, Forall commit_fits l -> P (put l)) -> (forall l, Forall commit_fits l -> outP P (k l)) ->
  forall l, Forall commit_fits l -> outP P (read_commits true put l js k).
Proof.
  intros M K H1 H2. induction js as [|j js IH]; intros l Hl; cbn [read_commits]; [now apply H2|].
  inversion_clear M. inversion_clear K.
  assert (A : forall c, commit_fits c -> Forall commit_fits (l ++ [c])) by (intros c Hc; apply Forall_app; auto).
  apply lift_P.
  - apply commit_P; try assumption. split; reflexivity.
  - intros c Hc. apply H1, A, Hc.
  - intros c Hc. apply IH; auto.
Qed.
Lemma ret_P (P : msg -> Prop) p m k : modest p -> has_keys ret_keys p -> P m -> (forall b e, P m -> nlen e < 1024 -> outP P (k (set_ret b e m))) ->
  (forall b, P (set_ret b (mError m) m)) -> outP P (read_ret p m k).
Proof.
  intros M K Pm Hk Hb. unfold read_ret.
  apply step_P; [exact Pm|eapply at_bind; [exact K|in_keys|intros x _; apply string_bool_safe]|]. intros b _. cbv zeta.
  apply step_P; [apply Hb|eapply at_bind; [exact K|in_keys|intros x Hx; apply get_text_safe; eapply modest_get; eassumption]|].
  intros e He. apply bind_ok in He as (y & _ & He). apply get_text_short in He. change (set_ret (mOk (set_ret b (mError m) m)) e (set_ret b (mError m) m)) with (set_ret b e m).
  now apply Hk.
Qed.
Lemma check_P (P : msg -> Prop) ok m : P m -> outP P (uuid_check ok m).
Proof. destruct ok; intros H; exact H. Qed.
Definition head_fits (j : join) : Prop := nlen (jProvider j) < 1024 /\ nlen (jName j) < 1024 /\ Forall commit_fits (jCommits j).
Definition rest_fits (m : msg) : Prop := commit_fits (mCommit m) /\ nlen (mPath m) < 1024 /\ nlen (mError m) < 1024.
Lemma fits_split m : fits m <-> head_fits (mJoin m) /\ rest_fits m.
Proof. unfold fits, head_fits, rest_fits. tauto. Qed.
Ltac jrec := cbn [mJoin set_join jProvider jName jStation jMajor jMinor jCommits].
Lemma join_P ret o m : modest (JObj o) -> join_complete o -> (ret = true -> has_keys ret_keys (JObj o)) -> fits m -> outP fits (read_join true ret (JObj o) m).
Proof.
  intros M [K KC] KR F. apply fits_split in F as [(F1 & F2 & F3) FR]. unfold read_join.
  assert (A : forall {B} k (f : json -> eres B), In k join_keys -> (forall x, modest x -> f x <> EBad) -> ebind (at_key (JObj o) k) f <> EBad).
  { intros B k f I H. eapply at_bind; [exact K|exact I|]. intros x Hx. apply H. eapply modest_get; eassumption. }
  assert (R : forall j, head_fits j -> fits (set_join j m)) by (intros j Hj; apply fits_split; now split).
  cbv zeta.
  apply step_P; [apply fits_split; split; [now repeat split|exact FR]|apply A; [in_keys|intros x [Hx _]; now apply string_number_safe]|]. intros v1 _. jrec.
  apply step_P; [apply R; now repeat split|apply A; [in_keys|intros x [Hx _]; now apply string_number_safe]|]. intros v2 _. jrec.
  apply step_P; [apply R; now repeat split|apply A; [in_keys|apply get_text_safe]|]. intros t1 Ht1. apply bind_ok in Ht1 as (y1 & _ & Ht1). apply get_text_short in Ht1. jrec.
  apply step_P; [apply R; now repeat split|apply A; [in_keys|apply get_text_safe]|]. intros t2 Ht2. apply bind_ok in Ht2 as (y2 & _ & Ht2). apply get_text_short in Ht2. jrec.
  apply step_P; [apply R; now repeat split|apply A; [in_keys|intros x _; apply get_uuid_safe]|]. intros v3 _. jrec.
  match goal with |- outP fits ((if ret then read_ret ?p ?m0 else _) ?k) =>
    assert (KK : forall b e, nlen e < 1024 -> outP fits (k (set_ret b e m0)));
    [|assert (KK' : outP fits (k m0)); [|destruct ret; [|exact KK'];
        apply ret_P; [exact M|apply KR; reflexivity| |intros b e _ He; now apply KK|]]] end; cbv beta.
  - intros b e He. cbn [mJoin set_join set_ret jProvider jName jStation jMajor jMinor jCommits].
    assert (Q : forall l, Forall commit_fits l -> fits (set_join (mkJoin t1 t2 (snd v3) v1 v2 l) (set_ret b e (set_join (mkJoin t1 t2 (snd v3) v1 v2 (jCommits (mJoin m))) m)))).
    { intros l Hl. apply fits_split. split; [now repeat split|]. destruct FR as (R1 & R2 & _). exact (conj R1 (conj R2 He)). }
    apply step_P; [apply Q; constructor|eapply at_safe; [exact K|in_keys]|]. intros cs Hcs.
    apply commits_P; [| | | |constructor].
    + apply Forall_forall. intros x Hx. eapply modest_elements; [eapply modest_get; eassumption|exact Hx].
    + apply Forall_forall. intros x Hx. eapply KC; [apply at_key_obj; exact Hcs|exact Hx].
    + exact Q.
    + intros l Hl. apply check_P, Q, Hl.
  - assert (Q : forall l, Forall commit_fits l -> fits (set_join (mkJoin t1 t2 (snd v3) v1 v2 l) (set_join (mkJoin t1 t2 (snd v3) v1 v2 (jCommits (mJoin m))) m))).
    { intros l Hl. apply fits_split. split; [now repeat split|]. exact FR. }
    apply step_P; [apply Q; constructor|eapply at_safe; [exact K|in_keys]|]. intros cs Hcs.
    apply commits_P; [| | | |constructor].
    + apply Forall_forall. intros x Hx. eapply modest_elements; [eapply modest_get; eassumption|exact Hx].
    + apply Forall_forall. intros x Hx. eapply KC; [apply at_key_obj; exact Hcs|exact Hx].
    + exact Q.
    + intros l Hl. apply check_P, Q, Hl.
  - apply R. now repeat split.
  - intros b. apply fits_split. split; [now repeat split|]. exact FR.
Qed.

Lemma sel_eq t s : str_eqb t s = true -> t = s. Proof. apply str_eqb_iff. Qed.
Lemma internal_P t o m : modest (JObj o) -> complete t o -> fits m -> outP fits (internal true t (JObj o) m).
Proof.
  intros M (C1 & C2 & C3 & C4 & C5) F. unfold internal.
  assert (FT : forall x, fits (set_type x m)) by (intros x; exact F).
  assert (RP : forall x, has_keys ret_keys (JObj o) -> outP fits (read_ret (JObj o) (set_type x m) (@ORet msg))).
  { intros x HK. apply ret_P; [exact M|exact HK|apply FT| |intros b; exact F].
    intros b e _ He. cbn [outP]. destruct F as (F1 & F2 & F3 & F4 & F5 & F6). exact (conj F1 (conj F2 (conj F3 (conj F4 (conj F5 He))))). }
  destruct (str_eqb t (T"MVR_JOIN")) eqn:E1. { apply join_P; [exact M|apply C1, sel_eq, E1|discriminate|apply FT]. }
  destruct (str_eqb t (T"MVR_JOIN_RET")) eqn:E2. { apply sel_eq in E2. destruct (C2 E2). apply join_P; [exact M|assumption|auto|apply FT]. }
  destruct (str_eqb t (T"MVR_COMMIT")) eqn:E3.
  { cbv zeta. destruct F as (F1 & F2 & F3 & F4 & F5 & F6). apply lift_P; [apply commit_P; [exact M|apply C3, sel_eq, E3|exact F4]| |];
      intros c Hc; exact (conj F1 (conj F2 (conj F3 (conj Hc (conj F5 F6))))). }
  destruct (str_eqb t (T"MVR_COMMIT_RET")) eqn:E4. { apply RP, C5. apply sel_eq in E4. now left. }
  destruct (str_eqb t (T"MVR_REQUEST")) eqn:E5.
  { apply sel_eq in E5. specialize (C4 E5). cbv zeta.
    apply step_P; [apply FT|eapply at_bind; [exact C4|now left|intros x _; apply get_uuid_safe]|]. intros v _.
    apply step_P; [exact F|eapply at_safe; [exact C4|right; now left]|]. intros e _.
    apply stations_P; intros l; [exact F|]. apply check_P. exact F. }
  destruct (str_eqb t (T"MVR_REQUEST_RET")) eqn:E6. { apply RP, C5. apply sel_eq in E6. right. now left. }
  destruct (str_eqb t (T"MVR_LEAVE")) eqn:E7.
  { cbv zeta. assert (L : forall k v, at_key (JObj o) k = EOk v -> outP fits (step (ebind (at_key (JObj o) k) (get_uuid true (mLeave (set_type MLeave m)))) (set_type MLeave m)
        (fun v0 => uuid_check (fst v0) (set_leave (snd v0) (set_type MLeave m))))).
    { intros k v Hv. rewrite Hv. cbn [ebind]. apply step_P; [apply FT|apply get_uuid_safe|]. intros a _. apply check_P. exact F. }
    destruct (at_key (JObj o) (T"FromStationUUID")) eqn:K1; destruct (at_key (JObj o) (T"StationUUID")) eqn:K2;
      try (rewrite <- K1; eapply L; exact K1); try (rewrite <- K2; eapply L; exact K2); try apply FT. }
  destruct (str_eqb t (T"MVR_LEAVE_RET")) eqn:E8. { apply RP, C5. apply sel_eq in E8. right. right. now left. }
  exact F.
Qed.

(** The type of the message is set before the fields are read. *)
Definition outW {S} (P : S -> Prop) (o : out S) : Prop := match o with ORet s => P s | OExc _ s => P s | OBad => True end.
Lemma step_W {A S} (P : S -> Prop) (e : eres A) s k : P s -> (forall a, outW P (k a)) -> outW P (step e s k).
Proof. intros H1 H2. destruct e; cbn [step]; [apply H2|exact H1|exact I]. Qed.
Lemma stations_W {S} (P : S -> Prop) put k : (forall l, P (put l)) -> (forall l, outW P (k l)) -> forall js l, outW P (read_stations true put l js k).
Proof. intros H1 H2. induction js as [|j js IH]; intros l; cbn [read_stations]; [apply H2|]. apply step_W; [apply H1|]. intros a. apply IH. Qed.
Lemma commits_W (P : msg -> Prop) put k : (forall l, P (put l)) -> (forall l, outW P (k l)) -> forall js l, outW P (read_commits true put l js k).
Proof.
  intros H1 H2. induction js as [|j js IH]; intros l; cbn [read_commits]; [apply H2|].
  destruct (commit_from_json true j empty_commit); cbn [lift_commit]; [apply IH|apply H1|exact I].
Qed.
Lemma check_W (P : msg -> Prop) ok m : P m -> outW P (uuid_check ok m).
Proof. destruct ok; intros H; exact H. Qed.
Lemma ret_W (P : msg -> Prop) p m k : P m -> (forall b e, P (set_ret b e m)) -> (forall b e, outW P (k (set_ret b e m))) -> outW P (read_ret p m k).
Proof. intros H1 H2 H3. unfold read_ret. apply step_W; [exact H1|]. intros b. cbv zeta. apply step_W; [apply H2|]. intros e. apply (H3 b e). Qed.
Lemma join_W ret p m ty : mType m = ty -> outW (fun m' => mType m' = ty) (read_join true ret p m).
Proof.
  intros E. unfold read_join. cbv zeta. do 5 (apply step_W; [exact E|]; intros ?; jrec).
  assert (K : forall m0 v x1 x2 x3 x4 x5, mType m0 = ty -> outW (fun m' => mType m' = ty) (step (at_key p (T"Commits")) (set_join (mkJoin x1 x2 x3 x4 x5 []) m0)
    (fun e => read_commits true (fun l => set_join (mkJoin x1 x2 x3 x4 x5 l) m0) [] (elements e)
       (fun l => uuid_check v (set_join (mkJoin x1 x2 x3 x4 x5 l) m0))))).
  { intros m0 v x1 x2 x3 x4 x5 E0. apply step_W; [exact E0|]. intros e. apply commits_W; intros l; [exact E0|]. apply check_W. exact E0. }
  destruct ret.
  - apply ret_W; [exact E|intros; exact E|]. intros b e. apply K. exact E.
  - apply K. exact E.
Qed.
(** The type texts of the protocol. *)
Definition type_of (t : list N) : option mtype :=
  let names := [(T"MVR_JOIN", MJoin); (T"MVR_JOIN_RET", MJoinRet); (T"MVR_COMMIT", MCommit); (T"MVR_COMMIT_RET", MCommitRet);
    (T"MVR_REQUEST", MRequest); (T"MVR_REQUEST_RET", MRequestRet); (T"MVR_LEAVE", MLeave); (T"MVR_LEAVE_RET", MLeaveRet)] in
  match find (fun p => str_eqb t (fst p)) names with Some p => Some (snd p) | None => None end.
Lemma internal_W t p m : match type_of t with
  | Some ty => outW (fun m' => mType m' = ty) (internal true t p m)
  | None => internal true t p m = OExc (T"Unable to parse payload type correctly") m end.
Proof.
  unfold type_of, internal. cbn [find fst snd].
  destruct (str_eqb t (T"MVR_JOIN")); [apply join_W; reflexivity|].
  destruct (str_eqb t (T"MVR_JOIN_RET")); [apply join_W; reflexivity|].
  destruct (str_eqb t (T"MVR_COMMIT")).
  { cbv zeta. destruct (commit_from_json _ _ _); cbn [lift_commit]; [reflexivity|reflexivity|exact I]. }
  destruct (str_eqb t (T"MVR_COMMIT_RET")); [apply ret_W; reflexivity|].
  destruct (str_eqb t (T"MVR_REQUEST")).
  { cbv zeta. apply step_W; [reflexivity|]. intros v. apply step_W; [reflexivity|]. intros e. apply stations_W; intros l; [reflexivity|]. apply check_W. reflexivity. }
  destruct (str_eqb t (T"MVR_REQUEST_RET")); [apply ret_W; reflexivity|].
  destruct (str_eqb t (T"MVR_LEAVE")).
  { cbv zeta. assert (L : forall k, outW (fun m' => mType m' = MLeave) (step (ebind (at_key p k) (get_uuid true (mLeave (set_type MLeave m)))) (set_type MLeave m)
        (fun v0 => uuid_check (fst v0) (set_leave (snd v0) (set_type MLeave m))))).
    { intros k. apply step_W; [reflexivity|]. intros a. apply check_W. reflexivity. }
    pose proof (L (T"FromStationUUID")) as L1. pose proof (L (T"StationUUID")) as L2.
    destruct (at_key p (T"FromStationUUID")); destruct (at_key p (T"StationUUID")); try exact L1; try exact L2; reflexivity. }
  destruct (str_eqb t (T"MVR_LEAVE_RET")); [apply ret_W; reflexivity|]. reflexivity.
Qed.

