(** C07, C08: received MVR-xchange payloads. *)
From Coq Require Import List NArith ZArith String Lia Bool Sorting.
From Coq Require Import ZifyN ZifyNat ZifyBool.
From Verif Require Import Bytes BytesProofs Txt NumModel NumProofs UtfSpec UtfModel UtfProofs UuidModel UuidProps ConvModel ConvProps ConvProps3.
From Verif Require Import JsonModel JsonProofs JsonParse JsonProps MessageModel MessageProofs MessageProps MessageProofs2.
Import ListNotations.
Open Scope N_scope.
Ltac Zify.zify_post_hook ::= Z.div_mod_to_equations.

(** ** C07: malformed payloads *)
(** An exception leaves the decoder exactly when the Type of a JSON object is not a text. *)
Theorem C07_exception_iff : forall wraps ft b m, (exists w m', to_external wraps ft b m = OExc w m') <->
  ft = 0 /\ b <> [] /\ exists o v, parse b = Some (JObj o) /\ obj_get o (T"Type") = Some v /\ forall s, v <> JStr s.
Proof.
  intros wraps ft b m. unfold to_external. change JSON_TYPE with 0. change BUFFER_TYPE with 1.
  assert (B : forall {A} (l : list A), l <> [] <-> negb (nlen l =? 0) = true).
  { intros A l. destruct l as [|x l]; [split; [easy|discriminate]|]. rewrite nlen_cons. split; [lia|discriminate]. }
  split.
  - intros (w & m' & H). destruct ((ft =? 0) && negb (nlen b =? 0)) eqn:E.
    + split; [lia|]. split; [apply B; lia|]. destruct (parse b) as [[]|]; try discriminate.
      exists m0. destruct (obj_get m0 (T"Type")) as [v|]; [|discriminate]. exists v. split; [reflexivity|]. split; [reflexivity|].
      intros s ->. cbn [get_str step] in H. destruct (internal _ _ _ _); discriminate.
    + destruct ((ft =? 1) && negb (nlen b =? 0)); discriminate.
  - intros (-> & H1 & o & v & P & G & H). apply B in H1. rewrite H1, P, G. cbn [N.eqb andb].
    destruct v; try (eexists; eexists; reflexivity). now elim (H s).
Qed.
Print Assumptions C07_exception_iff.
Theorem C07_escapes_refuted : exists b w m', to_external true 0 b fresh = OExc w m'.
Proof. exists (T"{""Type"":1}"). eexists. eexists. vm_compute. reflexivity. Qed.
Print Assumptions C07_escapes_refuted.

(** A received body that the fields can hold: a JSON object names its type by a text, has the keys of that type,
    no fractions and no text of 1024 bytes or more. *)
Definition acceptable (b : list N) : Prop := forall o, parse b = Some (JObj o) -> modest (JObj o)
  /\ forall v, obj_get o (T"Type") = Some v -> exists t, v = JStr t /\ complete t o.
Lemma parse_error_short t : nlen (parse_error t) < 1024.
Proof. unfold parse_error, nlen. rewrite firstn_length. lia. Qed.
(** The decoder returns, every text fits its field, and a message that got no type is marked as failed. *)
Theorem C07_reported : forall ft b m, fits m -> (ft = 0 -> acceptable b) ->
  exists m', to_external true ft b m = ORet m' /\ fits m' /\ (mType m' = MUndefined -> mOk m' = false).
Proof.
  intros ft b m F A. unfold to_external. change JSON_TYPE with 0. change BUFFER_TYPE with 1.
  assert (E : forall m0 t, fits m0 -> fits (set_ret false (parse_error t) m0)).
  { intros m0 t (F1 & F2 & F3 & F4 & F5 & F6). exact (conj F1 (conj F2 (conj F3 (conj F4 (conj F5 (parse_error_short t)))))). }
  destruct ((ft =? 0) && negb (nlen b =? 0)) eqn:E0.
  - assert (Miss : exists m', @ORet msg (set_ret false (parse_error (T"Type Field is missing")) (set_type MUndefined m)) = ORet m' /\ fits m' /\ (mType m' = MUndefined -> mOk m' = false)).
    { eexists. split; [reflexivity|]. split; [apply E; exact F|]. reflexivity. }
    specialize (A ltac:(lia)). destruct (parse b) as [[]|] eqn:P; try exact Miss. rename m0 into o.
    destruct (A o P) as [M C]. destruct (obj_get o (T"Type")) as [v|] eqn:G; [|exact Miss].
    destruct (C v eq_refl) as (t & -> & CT). cbn [get_str step].
    pose proof (internal_P t o (set_type MUndefined m) M CT F) as Q.
    pose proof (internal_W t (JObj o) (set_type MUndefined m)) as W.
    destruct (internal true t (JObj o) (set_type MUndefined m)) as [m'|w m'|]; cbn [outP] in Q; [| |contradiction].
    + exists m'. split; [reflexivity|]. split; [exact Q|]. intros U. unfold type_of in W.
      destruct (find _ _) as [[n ty]|] eqn:Ef; [|discriminate W]. cbn [outW snd] in W. apply find_some in Ef as [Hin _].
      subst ty. rewrite U in Hin.
      cbn [In] in Hin. repeat (destruct Hin as [Hin|Hin]; [apply (f_equal snd) in Hin; discriminate Hin|]). destruct Hin.
    + eexists. split; [reflexivity|]. split; [apply E; exact Q|]. reflexivity.
  - destruct ((ft =? 1) && negb (nlen b =? 0)).
    + eexists. split; [reflexivity|]. split; [exact F|]. discriminate.
    + eexists. split; [reflexivity|]. split; [apply E; exact F|]. reflexivity.
Qed.
Print Assumptions C07_reported.
(** Which malformed payloads are marked as failed: no JSON object, no Type, an unknown Type, an empty body or an
    unknown package type. *)
Theorem C07_failed : forall ft b m, fits m ->
  (ft = 0 -> b <> [] -> match parse b with
     | Some (JObj o) => match obj_get o (T"Type") with None => True | Some (JStr t) => type_of t = None | _ => False end
     | _ => True end) -> ~ (ft = 1 /\ b <> []) ->
  exists e, to_external true ft b m = ORet (set_ret false (parse_error e) (set_type MUndefined m)) /\ e <> [].
Proof.
  intros ft b m F H1 H2. unfold to_external. change JSON_TYPE with 0. change BUFFER_TYPE with 1.
  assert (B : b <> [] <-> negb (nlen b =? 0) = true).
  { destruct b as [|x l]; [split; [easy|discriminate]|]. rewrite nlen_cons. split; [lia|discriminate]. }
  destruct ((ft =? 0) && negb (nlen b =? 0)) eqn:E0.
  - specialize (H1 ltac:(lia)). rewrite B in H1. specialize (H1 ltac:(lia)).
    destruct (parse b) as [[]|]; try (eexists; split; [reflexivity|discriminate]).
    destruct (obj_get m0 (T"Type")) as [v|]; [|eexists; split; [reflexivity|discriminate]]. destruct v; try contradiction. cbn [get_str step].
    pose proof (internal_W s (JObj m0) (set_type MUndefined m)) as W. rewrite H1 in W. rewrite W. eexists. split; [reflexivity|discriminate].
  - replace ((ft =? 1) && negb (nlen b =? 0)) with false; [destruct ((ft =? 0) || (ft =? 1)); eexists; (split; [reflexivity|discriminate])|].
    symmetry. apply andb_false_iff. destruct (ft =? 1) eqn:E1; [|now left]. right.
    destruct (negb (nlen b =? 0)); [|reflexivity]. elim H2. split; [lia|]. now apply B.
Qed.
Print Assumptions C07_failed.
Example C07_case : acceptable (T"{""Type"":""MVR_LEAVE_RET"",""OK"":""true"",""Message"":7}")
  /\ match to_external true 0 (T"{""Type"":""MVR_LEAVE_RET"",""OK"":""true"",""Message"":7}") fresh with
     | ORet m' => mType m' = MLeaveRet /\ mOk m' = false /\ mError m' = T"Parse Error: [json.exception.type_error.302] type must be string, but is number"
     | _ => False end.
Proof.
  split; [|vm_compute; repeat split; reflexivity].
  intros o P. vm_compute in P. injection P as <-. split.
  - split; [vm_compute; tauto|]. intros s Hs. inversion Hs as [| |? x Hx|? k x Hx Kx]; subst.
    + repeat (destruct Hx as [Hx|Hx]; [injection Hx as <- _; reflexivity|]). destruct Hx.
    + repeat (destruct Hx as [Hx|Hx]; [injection Hx as _ <-; inversion Kx; reflexivity|]). destruct Hx.
  - intros v Hv. vm_compute in Hv. injection Hv as <-. eexists. split; [reflexivity|].
    split; [discriminate|]. split; [discriminate|]. split; [discriminate|]. split; [discriminate|].
    intros _ k Hk. destruct Hk as [<-|[<-|[]]]; discriminate.
Qed.
(** The restrictions are needed: a missing key, a text of 1024 bytes, and a fraction are undefined behaviour. *)
Theorem C07_missing_key_refuted : exists b, to_external true 0 b fresh = OBad.
Proof. exists (T"{""Type"":""MVR_LEAVE_RET""}"). vm_compute. reflexivity. Qed.
Print Assumptions C07_missing_key_refuted.
Theorem C07_overflow_refuted : exists b o, parse b = Some (JObj o) /\ has_keys ret_keys (JObj o) /\ no_float (JObj o) /\ to_external true 0 b fresh = OBad.
Proof.
  exists (T"{""Type"":""MVR_LEAVE_RET"",""OK"":true,""Message"":""" ++ repeat 97 1024 ++ T"""}"). eexists. split; [vm_compute; reflexivity|].
  split; [|split; [|vm_compute; reflexivity]].
  - intros k Hk. destruct Hk as [<-|[<-|[]]]; discriminate.
  - cbn [no_float]. tauto.
Qed.
Print Assumptions C07_overflow_refuted.
Theorem C07_fraction_refuted : exists b, (forall o s, parse b = Some (JObj o) -> text_in s (JObj o) -> nlen s < 1024) /\ to_external true 0 b fresh = OBad.
Proof.
  exists (T"{""Type"":""MVR_JOIN"",""verMajor"":1e20}"). split; [|vm_compute; reflexivity].
  intros o s P Hs. vm_compute in P. injection P as <-. inversion Hs as [| |? x Hx|? k x Hx Kx]; subst.
  + repeat (destruct Hx as [Hx|Hx]; [injection Hx as <- _; reflexivity|]). destruct Hx.
  + repeat (destruct Hx as [Hx|Hx]; [injection Hx as _ <-; inversion Kx; reflexivity|]). destruct Hx.
Qed.
Print Assumptions C07_fraction_refuted.

(** ** C08: station lists *)
(** A well-formed entry: 32 hexadecimal digits of either case, in the plain or in the spaced form. *)
Definition well_formed (s : list N) (w : words) : Prop :=
  exists u, uuid_ok u /\ get_words true u = Some w /\ (map upper1 s = spaced u \/ map upper1 s = uuid_text false u).
(** An entry of a wrong length (in UTF-16 units), or of the right length without its four hyphens. *)
Definition misshapen (s : list N) : Prop := exists cs, Forall scalar cs /\ ~ In 0 cs /\ s = enc8 cs /\ nlen (enc16 cs) <> 47 /\ ~ has_shape false (enc16 cs).
Lemma spaced_ascii : forall u, bytes_ok u -> Forall (fun c => 0 < c /\ c < 97) (spaced u).
Proof.
  assert (P : forall b, b < 256 -> Forall (fun c => 0 < c /\ c < 97) (hexbytes [b])).
  { intros b Hb. pose proof (hexU_range (b / 16) ltac:(lia)). pose proof (hexU_range (b mod 16) ltac:(lia)).
    change (hexbytes [b]) with [hexU (b / 16); hexU (b mod 16)]. apply Forall_cons; [lia|]. apply Forall_cons; [lia|apply Forall_nil]. }
  induction u as [|b u IH]; intros B; [constructor|]. inversion_clear B as [|? ? Hb B']. destruct u as [|b' u].
  - exact (P b Hb).
  - change (spaced (b :: b' :: u)) with (hexbytes [b] ++ [32] ++ spaced (b' :: u)).
    apply Forall_app. split; [exact (P b Hb)|]. apply Forall_app. split; [apply Forall_cons; [lia|apply Forall_nil]|]. now apply IH.
Qed.
Lemma text_low u : uuid_ok u -> Forall (fun c => 0 < c /\ c < 97) (uuid_text false u).
Proof.
  intros U. pose proof (uuid_text_ascii u U) as A. pose proof (uuid_text_upper false u U) as P. rewrite Forall_forall in *.
  intros c Hc. pose proof (A c Hc) as Ac. cbv beta in Ac. split; [lia|].
  destruct U as [B L]. destruct (list16 u L) as (a1&a2&a3&a4&a5&a6&a7&a8&a9&b1&b2&b3&b4&b5&b6&b7&->).
  assert (X : forall v, In v [a1;a2;a3;a4;a5;a6;a7;a8;a9;b1;b2;b3;b4;b5;b6;b7] -> v < 256) by (intros v Hv; unfold bytes_ok in B; rewrite Forall_forall in B; now apply B).
  assert (H16 : forall v, v < 16 -> hexU v < 97) by (intros v Hv; pose proof (hexU_range v Hv); lia).
  assert (HB : forall l, (forall v, In v l -> v < 256) -> forall c, In c (hexbytes l) -> c < 97).
  { intros l Hl x Hx. apply in_flat_map in Hx as (v & Hv & Hx). specialize (Hl v Hv). destruct Hx as [<-|[<-|[]]]; apply H16; lia. }
  unfold uuid_text in Hc. cbv zeta in Hc. cbn [firstn skipn] in Hc.
  repeat (apply in_app_or in Hc as [Hc|Hc]; [try (destruct Hc as [<-|[]]; vm_compute; reflexivity); revert Hc; apply HB; intros v Hv; apply X; cbn [In] in *; tauto|]).
  revert Hc. apply HB. intros v Hv. apply X. cbn [In] in *. tauto.
Qed.
Lemma upper_low s l : map upper1 s = l -> Forall (fun c => 0 < c /\ c < 97) l -> Forall (fun c => 0 < c /\ c < 128) s.
Proof.
  intros <- F. rewrite Forall_forall in *. intros c Hc. specialize (F (upper1 c) (in_map upper1 s c Hc)). cbv beta in F.
  revert F. unfold upper1. destruct ((97 <=? c) && (c <=? 122)) eqn:E; lia.
Qed.
Lemma good_entry s w old : well_formed s w -> get_uuid true old (JStr s) = EOk (true, w).
Proof.
  intros (u & U & W & H). assert (A : Forall (fun c => 0 < c /\ c < 128) s).
  { destruct H as [H|H]; (eapply upper_low; [exact H|]); [apply spaced_ascii, U|now apply text_low]. }
  unfold get_uuid. cbn [get_str ebind]. destruct (ascii_wf8 s A) as [_ ->].
  destruct (C44_read u s [] U H) as [_ R]. rewrite (R true w W old). reflexivity.
Qed.
Lemma enc16_no_nul cs : ~ In 0 cs -> ~ In 0 (enc8 cs).
Proof.
  intros H C. apply H. clear H. induction cs as [|c cs IH]; [exact C|]. rewrite enc8_cons in C. apply in_app_or in C as [C|C]; [left|right; now apply IH].
  unfold enc8_1 in C. destruct (c <? 128) eqn:E1; [destruct C as [<-|[]]; reflexivity|].
  destruct (c <? 2048); [|destruct (c <? 65536)]; cbn [In] in C; repeat (destruct C as [C|C]; [exfalso; lia|]); destruct C.
Qed.
Lemma bad_entry s old : misshapen s -> exists w, get_uuid true old (JStr s) = EOk (false, w).
Proof.
  intros (cs & F & Z0 & -> & L & Sh). unfold get_uuid. cbn [get_str ebind].
  assert (E : set_from_chars (enc8 cs) = Some (enc16 cs)).
  { unfold set_from_chars. rewrite upto_nul_id by now apply enc16_no_nul. apply from_bytes_iff. exists cs. auto. }
  rewrite E. set (l := enc16 cs) in *. unfold read_mvr_uuid, uuid_input.
  replace (nlen l =? 47) with false by lia. destruct (nlen l =? 36) eqn:E36.
  - cbn [bind]. assert (NS : ~ has_shape true ([123] ++ l ++ [125])).
    { intros [_ HS]. apply Sh. split; [unfold nlen in E36; lia|].
      assert (HL : forall i c, (i < 36)%nat -> nth_error ([123] ++ l ++ [125]) (S i) = Some c -> nth_error l i = Some c).
      { intros i c Hi Hc. cbn [app nth_error] in Hc. rewrite nth_error_app1 in Hc; [exact Hc|]. unfold nlen in E36. lia. }
      intros i c Hi. cbn [separators In] in Hi. destruct Hi as [Hi|[Hi|[Hi|[Hi|[]]]]]; injection Hi as <- <-; apply HL; try lia; apply HS; cbn [separators In]; tauto. }
    apply (C28_rejected true _ zero_uuid) in NS. rewrite NS. cbn [rd_ok rd_val]. eexists. vm_compute. reflexivity.
  - destruct (nlen l =? 0); cbn [bind]; eexists; vm_compute; reflexivity.
Qed.
Lemma stations_filter {S} (put : list words -> S) k : forall es l,
  Forall (fun e => match snd e with Some w => well_formed (fst e) w | None => misshapen (fst e) end) es ->
  read_stations true put l (map (fun e => JStr (fst e)) es) k = k (l ++ flat_map (fun e => match snd e with Some w => [w] | None => [] end) es).
Proof.
  induction es as [|[s r] es IH]; intros l F; [cbn; now rewrite app_nil_r|]. inversion_clear F as [|? ? H F']. cbn [fst snd] in H.
  cbn [map read_stations flat_map fst snd]. destruct r as [w|].
  - rewrite (good_entry s w no_words H). cbn [step fst snd]. rewrite IH by exact F'. now rewrite <- app_assoc.
  - destruct (bad_entry s no_words H) as [w ->]. cbn [step fst]. now rewrite IH.
Qed.
(** The well-formed entries are kept in order, the misshapen ones dropped ([_partial]: entries of the right
    shape with characters that are no digits are excluded). *)
Theorem C08_stations_partial : forall o es c0 c,
  Forall (fun e => match snd e with Some w => well_formed (fst e) w | None => misshapen (fst e) end) es ->
  at_key o (T"ForStationsUUID") = EOk (JArr (map (fun e => JStr (fst e)) es)) -> commit_from_json true o c0 = ORet c ->
  cFor c = flat_map (fun e => match snd e with Some w => [w] | None => [] end) es.
Proof.
  intros o es c0 c F K H. unfold commit_from_json in H. rewrite K in H.
  repeat match type of H with step ?e _ _ = _ => destruct e; cbn [step] in H; try discriminate; cbv zeta in H end.
  cbn [elements] in H. rewrite stations_filter in H by exact F. injection H as <-. reflexivity.
Qed.
Print Assumptions C08_stations_partial.
Example C08_case :
  let es := [(T"09e95d97-364c-43D5-8ADF-FF4CE0EC41A7", Some (2539514121, 3577957430, 1291837322, 2806115552)); (T"nonsense", None); (T"", None);
             (T"00 00 00 00 00 00 00 00 00 00 00 00 00 00 00 01", Some (0, 0, 0, 16777216))] in
  Forall (fun e => match snd e with Some w => well_formed (fst e) w | None => misshapen (fst e) end) es
  /\ forall c, commit_from_json true (commit_obj JNull (JStr []) (JStr []) (JUns 0) (JStr []) (JStr []) (JUns 0) (JUns 0) (JArr (map (fun e => JStr (fst e)) es))) empty_commit = ORet c ->
     cFor c = [(2539514121, 3577957430, 1291837322, 2806115552); (0, 0, 0, 16777216)].
Proof.
  intros es. split.
  - apply Forall_cons; [|apply Forall_cons; [|apply Forall_cons; [|apply Forall_cons; [|apply Forall_nil]]]]; cbn [fst snd].
    + exists u0. split; [exact (proj1 C27_ex)|]. split; [vm_compute; reflexivity|right; vm_compute; reflexivity].
    + exists (T"nonsense"). split; [apply Forall_forall; intros c Hc; repeat (destruct Hc as [<-|Hc]; [left; vm_compute; reflexivity|]); destruct Hc|].
      split; [intros H; repeat (destruct H as [H|H]; [discriminate H|]); exact H|]. split; [reflexivity|]. split; [discriminate|]. intros [H _]. discriminate H.
    + exists []. split; [constructor|]. split; [intros []|]. split; [reflexivity|]. split; [discriminate|]. intros [H _]. discriminate H.
    + exists (repeat 0 15 ++ [1]). split; [split; [apply Forall_forall; intros c Hc; vm_compute in Hc; repeat (destruct Hc as [<-|Hc]; [reflexivity|]); destruct Hc|reflexivity]|].
      split; [vm_compute; reflexivity|left; vm_compute; reflexivity].
  - intros c H. vm_compute in H. injection H as <-. reflexivity.
Qed.
(** Any text of 47 characters is kept. *)
Theorem C08_kept_refuted : exists s o c, (forall w, ~ well_formed s w)
  /\ at_key o (T"ForStationsUUID") = EOk (JArr [JStr s]) /\ commit_from_json true o empty_commit = ORet c /\ cFor c = [(14680064, 2684354560, 4026589197, 3040)].
Proof.
  exists (T"this entry is not an identifier, but it is kept").
  exists (commit_obj JNull (JStr []) (JStr []) (JUns 0) (JStr []) (JStr []) (JUns 0) (JUns 0) (JArr [JStr (T"this entry is not an identifier, but it is kept")])).
  eexists. split; [|split; [reflexivity|split; [vm_compute; reflexivity|reflexivity]]].
  intros w (u & [B L] & _ & H). destruct (list16 u L) as (a&b&c&d&e&f&g&h&i&j&k&l&m&n&o&p&->).
  destruct H as [H|H].
  - assert (Ha : a < 256) by exact (Forall_inv B). pose proof (hexU_range (a / 16) ltac:(lia)) as R.
    change (spaced _) with (hexU (a / 16) :: hexU (a mod 16) :: 32 :: spaced [b;c;d;e;f;g;h;i;j;k;l;m;n;o;p]) in H.
    apply (f_equal (fun l => nth 0 l 0)) in H. cbn [nth] in H. rewrite <- H in R. vm_compute in R. destruct R as [_ R]. discriminate R.
  - apply (f_equal (@List.length N)) in H. discriminate H.
Qed.
Print Assumptions C08_kept_refuted.
