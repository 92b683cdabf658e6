(** Properties C10 (recipients), C11 (service name) and C12 (TXT record). *)
From Coq Require Import List NArith ZArith String Bool Lia.
From Coq Require Import ZifyN ZifyNat ZifyBool.
From Verif Require Import Bytes BytesProofs Txt UtfSpec UtfModel UtfProofs NumModel NumProofs UuidModel UuidProps ConvModel ConvProps3 JsonModel JsonProofs MessageModel MessageProofs MessageProps ServiceModel ServiceProofs.
Import ListNotations.
Open Scope N_scope.

(** ** C11. Service names *)
(** The allowed characters, written out. *)
Definition allowed (c : N) : Prop := In c (T"abcdefghijklmnopqrstuvwxyzABCDEFGHIJKLMNOPQRSTUVWXYZ0123456789-_").
(** [kept s r]: [r] is [s] without exactly its characters that are not allowed. *)
Inductive kept : list N -> list N -> Prop :=
| kept_nil : kept [] []
| kept_yes c s r : allowed c -> kept s r -> kept (c :: s) (c :: r)
| kept_no c s r : ~ allowed c -> kept s r -> kept (c :: s) r.
Lemma kept_filter s : kept s (filter name_char s).
Proof.
  induction s as [|c s IH]; cbn [filter]; [constructor|].
  destruct (name_char c) eqn:E; [apply kept_yes|apply kept_no]; try exact IH.
  - now apply name_char_iff.
  - intros H. apply name_char_iff in H. congruence.
Qed.
Lemma kept_allowed s r : kept s r -> Forall allowed r.
Proof. induction 1; auto. Qed.
Lemma kept_length s r : kept s r -> nlen r <= nlen s.
Proof. induction 1; rewrite ?nlen_cons; lia. Qed.
Lemma allowed_nonzero s : Forall allowed s -> ~ In 0 s.
Proof.
  intros F H. rewrite Forall_forall in F. apply F in H. apply name_char_iff in H. discriminate.
Qed.
Lemma filter_all s : Forall allowed s -> filter name_char s = s.
Proof. induction 1 as [|c s H F IH]; cbn [filter]; [reflexivity|]. apply name_char_iff in H. now rewrite H, IH. Qed.
Lemma fixed_id s : nlen s < 1024 -> ~ In 0 s -> fixed_text s = s.
Proof. intros L Z. unfold fixed_text. rewrite upto_nul_id by exact Z. apply firstn_all2. unfold nlen in L. lia. Qed.
Lemma filter_name_eq s : nlen s < 1024 -> filter_service_name s = filter name_char s.
Proof.
  intros L. destruct s as [|c s']; [reflexivity|]. unfold filter_service_name. pose proof (kept_filter (c :: s')) as K.
  apply fixed_id; [pose proof (kept_length _ _ K); lia|apply allowed_nonzero, (kept_allowed _ _ K)].
Qed.
(** For every text a name field can hold. *)
Theorem C11_service_name : forall s, nlen s < 1024 ->
  kept s (filter_service_name s) /\ Forall allowed (filter_service_name s)
  /\ filter_service_name (filter_service_name s) = filter_service_name s.
Proof.
  intros s L. pose proof (kept_filter s) as K. rewrite (filter_name_eq s L).
  split; [exact K|]. split; [exact (kept_allowed _ _ K)|].
  rewrite filter_name_eq by (pose proof (kept_length _ _ K); lia). apply filter_all, (kept_allowed _ _ K).
Qed.
Print Assumptions C11_service_name.
(** The relation determines the result, so the statement leaves no freedom. *)
Theorem C11_unique : forall s r r', kept s r -> kept s r' -> r = r'.
Proof.
  intros s r r' K. revert r'. induction K as [|c s r A K IH|c s r A K IH]; intros r' K'; inversion K'; subst; try contradiction; try reflexivity.
  - f_equal. now apply IH.
  - now apply IH.
Qed.
Print Assumptions C11_unique.
Example C11_case : nlen (T"My Group_1!") < 1024 /\ filter_service_name (T"My Group_1!") = T"MyGroup_1".
Proof. split; reflexivity. Qed.
(** Different groups can end up with the same announced name, also the empty one. *)
Theorem C11_distinct_refuted : exists s s', s <> s' /\ nlen s < 1024 /\ nlen s' < 1024 /\ filter_service_name s = filter_service_name s'.
Proof. exists (T"a b"), (T"ab"). repeat split; discriminate || reflexivity. Qed.
Print Assumptions C11_distinct_refuted.

(** ** C10. Recipients *)
(** Who is meant by a message. *)
Definition addressed (m : msg) (e : member) : Prop :=
  match mType m with
  | MCommit => cFor (mCommit m) = [] \/ In (gStation e) (cFor (mCommit m))
  | MRequest => rFrom (mRequest m) = [] \/ In (gStation e) (rFrom (mRequest m))
  | _ => True
  end.
(** [sends m g l]: [l] are the transmissions to the addressed entries of [g] in the order of [g], each
    entry once per address it announced. *)
Inductive sends (m : msg) : list member -> list (list N * N) -> Prop :=
| sends_nil : sends m [] []
| sends_yes e g l : addressed m e -> sends m g l -> sends m (e :: g) (map (fun ip => (ip, gPort e)) (gIPs e) ++ l)
| sends_no e g l : ~ addressed m e -> sends m g l -> sends m (e :: g) l.
Lemma passes_iff m e : passes (recipient_filter m) e = true <-> addressed m e.
Proof.
  assert (G : forall l, (nlen l =? 0) || existsb (words_eqb (gStation e)) l = true <-> l = [] \/ In (gStation e) l).
  { intros l. rewrite orb_true_iff, existsb_exists. split.
    - intros [H|(w & Hi & E)]; [left; destruct l; [reflexivity|rewrite nlen_cons in H; lia]|]. apply words_eqb_iff in E. subst w. now right.
    - intros [->|H]; [now left|]. right. exists (gStation e). split; [exact H|]. now apply words_eqb_iff. }
  unfold passes, recipient_filter, addressed. destruct (mType m); try (split; [intros _; exact I|reflexivity]); apply G.
Qed.
Theorem C10_recipients : forall m g, sends m g (transmissions g m).
Proof.
  intros m. induction g as [|e g IH]; [constructor|]. cbn [transmissions flat_map].
  destruct (passes (recipient_filter m) e) eqn:E; [apply sends_yes; [now apply passes_iff|exact IH]|].
  apply sends_no; [|exact IH]. intros H. apply passes_iff in H. congruence.
Qed.
Print Assumptions C10_recipients.
Theorem C10_exactly : forall m g ip port, In (ip, port) (transmissions g m) <->
  exists e, In e g /\ addressed m e /\ In ip (gIPs e) /\ port = gPort e.
Proof.
  intros m g ip port. unfold transmissions. rewrite in_flat_map. split.
  - intros (e & He & H). destruct (passes (recipient_filter m) e) eqn:E; [|destruct H].
    apply in_map_iff in H as (x & E2 & Hx). inversion E2; subst. exists e. apply passes_iff in E. tauto.
  - intros (e & He & A & Hi & ->). exists e. split; [exact He|]. apply passes_iff in A. rewrite A.
    apply in_map_iff. now exists ip.
Qed.
Print Assumptions C10_exactly.
(** When every entry has one address and the addresses differ, every addressed station gets the message once. *)
Theorem C10_once_partial : forall m g, (forall e, In e g -> List.length (gIPs e) = 1%nat) ->
  NoDup (map (fun e => (gIPs e, gPort e)) g) -> NoDup (transmissions g m).
Proof.
  intros m. induction g as [|e g IH]; intros H1 N; [constructor|]. cbn [map] in N. inversion_clear N as [|? ? N1 N2].
  assert (I : NoDup (transmissions g m)) by (apply IH; [intros x Hx; apply H1; now right|exact N2]).
  cbn [transmissions flat_map]. fold (transmissions g m).
  destruct (passes (recipient_filter m) e); [|exact I]. pose proof (H1 e (or_introl eq_refl)) as L.
  destruct (gIPs e) as [|ip [|? ?]] eqn:Ei; try discriminate. cbn [map app]. constructor; [|exact I].
  intros H. apply C10_exactly in H as (x & Hx & _ & Hi & P). apply N1.
  pose proof (H1 x (or_intror Hx)) as Lx. destruct (gIPs x) as [|ip' [|? ?]] eqn:Ex; try discriminate.
  destruct Hi as [->|[]]. apply in_map_iff. exists x. split; [now rewrite Ex, P|exact Hx].
Qed.
Print Assumptions C10_once_partial.
(** A group of two stations, the second one on two network adapters. *)
Definition g_a := mkMember [T"10.0.0.1"] 5000 (T"A") (1, 2, 3, 4).
Definition g_b := mkMember [T"10.0.0.2"; T"192.168.0.2"] 6000 (T"B") (5, 6, 7, 8).
Definition to_b : msg := mkMsg MCommit (mJoin fresh) (mkCommit [] [] 0 0 0 no_words no_words [(5, 6, 7, 8)]) (mRequest fresh) no_words [] None true [].
Example C10_case : addressed to_b g_b /\ ~ addressed to_b g_a /\ addressed fresh g_a
  /\ transmissions [g_a; g_b] fresh = [(T"10.0.0.1", 5000); (T"10.0.0.2", 6000); (T"192.168.0.2", 6000)].
Proof.
  split; [right; now left|]. split; [|split; [exact I|reflexivity]]. intros [H|[H|[]]]; discriminate.
Qed.
(** A station that announces two addresses is sent the message twice (in parallel), although it is one entry
    named once. *)
Theorem C10_twice_refuted : exists m g e ip ip', g = [e] /\ ip <> ip' /\ cFor (mCommit m) = [gStation e] /\ mType m = MCommit
  /\ transmissions g m = [(ip, gPort e); (ip', gPort e)].
Proof. exists to_b, [g_b], g_b, (T"10.0.0.2"), (T"192.168.0.2"). repeat split; discriminate || reflexivity. Qed.
Print Assumptions C10_twice_refuted.

(** ** C12. TXT record *)
(** The records of a TXT content: each a length byte and that many bytes (fewer at the end of the content). *)
Inductive records : list N -> list (list N) -> Prop :=
| rec_nil : records [] []
| rec_cons len s rs : records (skipn (N.to_nat len) s) rs -> records (len :: s) (firstn (N.to_nat len) s :: rs).
(** An entry whose value the text class refuses: malformed UTF-8 after a known key that occurs only once. *)
Definition refused (t : list N) : Prop :=
  exists k v, In k [T"StationName="; T"StationUUID="] /\ t = k ++ v /\ (forall x r, t = x :: r -> ~ occurs k r) /\ set_from_chars v = None.
Lemma key_eq (k t v : list N) : In k [T"StationName="; T"StationUUID="] -> t = k ++ v -> find_char 61 t = Some 11%nat /\ skipn (11 + 1) t = v.
Proof.
  intros [<-|[<-|[]]] ->; split; reflexivity.
Qed.
Lemma refused_key t k v : In k [T"StationName="; T"StationUUID="] -> t = k ++ v -> (forall x r, t = x :: r -> ~ occurs k r) ->
  set_from_chars v <> None -> ~ refused t.
Proof.
  intros Hk E O V (k' & v' & Hk' & E' & O' & V'). assert (v' = v); [|congruence].
  destruct (key_eq _ _ _ Hk E) as [_ <-]. destruct (key_eq _ _ _ Hk' E') as [_ <-]. reflexivity.
Qed.
Lemma refused_dec t : refused t \/ ~ refused t.
Proof.
  destruct (is_zero_at (last_at (T"StationName=") t)) eqn:E1; [|destruct (is_zero_at (last_at (T"StationUUID=") t)) eqn:E2].
    - apply last_zero in E1 as [(v & E) O]. destruct (set_from_chars v) eqn:V.
      + right. apply (refused_key t (T"StationName=") v); auto; [now left|congruence].
      + left. exists (T"StationName="), v. repeat split; auto. now left.
    - apply last_zero in E2 as [(v & E) O]. destruct (set_from_chars v) eqn:V.
      + right. apply (refused_key t (T"StationUUID=") v); auto; [right; now left|congruence].
      + left. exists (T"StationUUID="), v. repeat split; auto. right. now left.
    - right. intros (k & v & Hk & E & O & V). assert (Z : is_zero_at (last_at k t) = true) by (apply last_zero; split; [now exists v|exact O]).
      destruct Hk as [<-|[<-|[]]]; congruence.
Qed.
(** What one record does, in terms of the specification. *)
Lemma txt_record f pre len rest n u :
  let t := firstn (N.to_nat len) rest in
  (~ In 61 t -> txt_loop (S f) (pre ++ len :: rest) (List.length pre) n u = txt_loop f (pre ++ len :: rest) (List.length pre) n u) /\
  (In 61 t -> refused t -> txt_loop (S f) (pre ++ len :: rest) (List.length pre) n u = Exc) /\
  (In 61 t -> ~ refused t -> exists n' u', txt_loop (S f) (pre ++ len :: rest) (List.length pre) n u =
     txt_next f (pre ++ len :: t) (skipn (N.to_nat len) rest) n' u').
Proof.
  cbv zeta. pose proof (txt_step f pre len rest n u) as S. cbv zeta in S. rewrite S. clear S.
  set (t := firstn (N.to_nat len) rest). split; [|split].
  - intros H. apply find_char_none in H. now rewrite H.
  - intros H (k & v & Hk & E & O & V). destruct (key_eq k t v Hk E) as [-> ->].
    destruct (is_zero_at (last_at (T"StationName=") t)) eqn:E1; [now rewrite V|].
    destruct (is_zero_at (last_at (T"StationUUID=") t)) eqn:E2; [now rewrite V|]. exfalso.
    assert (Z : is_zero_at (last_at k t) = true) by (apply last_zero; split; [now exists v|exact O]).
    destruct Hk as [<-|[<-|[]]]; congruence.
  - intros H R. destruct (find_char 61 t) as [e|] eqn:Ef; [|apply find_char_none in Ef; contradiction].
    destruct (is_zero_at (last_at (T"StationName=") t)) eqn:E1.
    + apply last_zero in E1 as [(v & Ev) O]. destruct (key_eq (T"StationName=") t v (or_introl eq_refl) Ev) as [Q1 Q2].
      rewrite Ef in Q1. inversion Q1; subst e. rewrite Q2. destruct (set_from_chars v) as [x|] eqn:V; [now exists x, u|].
      exfalso. apply R. exists (T"StationName="), v. repeat split; auto. now left.
    + destruct (is_zero_at (last_at (T"StationUUID=") t)) eqn:E2.
      * apply last_zero in E2 as [(v & Ev) O]. destruct (key_eq (T"StationUUID=") t v (or_intror (or_introl eq_refl)) Ev) as [Q1 Q2].
        rewrite Ef in Q1. inversion Q1; subst e. rewrite Q2. destruct (set_from_chars v) as [x|] eqn:V; [now exists n, x|].
        exfalso. apply R. exists (T"StationUUID="), v. repeat split; auto. right. now left.
      * now exists n, u.
Qed.
Lemma txt_stuck : forall f pre len rest n u, ~ In 61 (firstn (N.to_nat len) rest) ->
  txt_loop f (pre ++ len :: rest) (List.length pre) n u = Loop.
Proof.
  induction f as [|f IH]; intros pre len rest n u H; [reflexivity|].
  rewrite (proj1 (txt_record f pre len rest n u) H). now apply IH.
Qed.
Definition good_before (rs : list (list N)) : Prop := Forall (fun t => In 61 t /\ ~ refused t) rs.
(** Stuck at a later record. *)
Lemma txt_reaches : forall rs pre s, records s rs -> forall a t b, rs = a ++ t :: b -> good_before a -> ~ In 61 t ->
  forall f n u, txt_loop f (pre ++ s) (List.length pre) n u = Loop.
Proof.
  intros rs pre s R. revert pre. induction R as [|len s rs R IH]; intros pre a t b E G H f n u; [destruct a; discriminate|].
  destruct a as [|t0 a]; inversion E; subst.
  - now apply txt_stuck.
  - destruct f as [|f]; [reflexivity|]. inversion_clear G as [|? ? [G1 G2] G'].
    destruct (proj2 (proj2 (txt_record f pre len s n u)) G1 G2) as (n' & u' & ->).
    set (t0 := firstn (N.to_nat len) s). destruct (skipn (N.to_nat len) s) as [|c r] eqn:Es.
    + inversion R as [Q|]. destruct a; discriminate.
    + cbn [txt_next]. eapply IH; try eassumption. reflexivity.
Qed.
(** Otherwise the loop ends, after at most one pass per record. *)
Lemma txt_finishes : forall rs pre s, records s rs -> s <> [] ->
  ((forall a t b, rs = a ++ t :: b -> good_before a -> In 61 t) ->
  forall n u, txt_loop (List.length rs) (pre ++ s) (List.length pre) n u <> Loop).
Proof.
  intros rs pre s R. revert pre. induction R as [|len s rs R IH]; intros pre NE G n u; [congruence|]. clear NE.
  cbn [List.length]. pose proof (G [] _ rs eq_refl (Forall_nil _)) as H.
  destruct (txt_record (List.length rs) pre len s n u) as (_ & T2 & T3).
  set (t := firstn (N.to_nat len) s) in *.
  pose proof (refused_dec t) as D.
  destruct D as [D|D]; [rewrite (T2 H D); discriminate|].
  destruct (T3 H D) as (n' & u' & ->). destruct (skipn (N.to_nat len) s) as [|c r] eqn:Es; [discriminate|].
  cbn [txt_next]. apply IH; [discriminate|]. intros a t' b E GA. apply (G (t :: a) t' b); [now rewrite E|]. constructor; [now split|exact GA].
Qed.
Lemma stuck_dec : forall rs, (exists a t b, rs = a ++ t :: b /\ good_before a /\ ~ In 61 t) \/ (forall a t b, rs = a ++ t :: b -> good_before a -> In 61 t).
Proof.
  induction rs as [|t rs IH]; [right; intros a t b E; destruct a; discriminate|].
  destruct (in_dec N.eq_dec 61 t) as [Y|Y]; [|left; exists [], t, rs; repeat split; [constructor|exact Y]].
  destruct (refused_dec t) as [D|D].
  - right. intros a t' b E G. destruct a as [|x a]; inversion E; subst; [exact Y|]. inversion_clear G as [|? ? [_ G2] _]; contradiction.
  - destruct IH as [(a & t' & b & E & G & H)|H].
    + left. exists (t :: a), t', b. split; [now rewrite E|]. split; [constructor; [now split|exact G]|exact H].
    + right. intros a t' b E G. destruct a as [|x a]; inversion E; subst; [exact Y|]. inversion_clear G as [|? ? _ G'].
      now apply (H a t' b).
Qed.
Lemma parse_loop fuel wraps txt : txt_loop fuel txt 0 [] [] = Loop -> parse_txt fuel wraps txt = Loop.
Proof. intros H. unfold parse_txt. now rewrite H. Qed.
(** Parsing never ends exactly when some record has no '=' and no earlier record ends it with an exception. *)
Theorem C12_never_ends_iff : forall txt rs, records txt rs ->
  (forall fuel, txt_loop fuel txt 0 [] [] = Loop) <-> (exists a t b, rs = a ++ t :: b /\ good_before a /\ ~ In 61 t).
Proof.
  intros txt rs R. split.
  - intros H. destruct (stuck_dec rs) as [S|S]; [exact S|]. exfalso.
    destruct txt as [|c s]; [specialize (H 1%nat); discriminate|].
    exact (txt_finishes rs [] (c :: s) R ltac:(discriminate) S [] [] (H _)).
  - intros (a & t & b & E & G & H) fuel. exact (txt_reaches rs [] txt R a t b E G H fuel [] []).
Qed.
Print Assumptions C12_never_ends_iff.
(** When every record has its '=' the loop ends after at most one pass per record; the empty content throws. *)
Theorem C12_ends_partial : forall txt rs, records txt rs -> txt <> [] -> Forall (fun t => In 61 t) rs ->
  forall fuel, (List.length rs <= fuel)%nat -> txt_loop fuel txt 0 [] [] <> Loop.
Proof.
  intros txt rs R NE F fuel L.
  assert (H : txt_loop (List.length rs) txt 0 [] [] <> Loop).
  { apply (txt_finishes rs [] txt R NE). intros a t b -> _. apply Forall_app in F as [_ F]. now inversion_clear F. }
  now rewrite (txt_mono (List.length rs) fuel txt 0 [] [] L H).
Qed.
Print Assumptions C12_ends_partial.
Theorem C12_empty_throws : forall fuel wraps, parse_txt (S fuel) wraps [] = Exc.
Proof. reflexivity. Qed.
Print Assumptions C12_empty_throws.
(** A peer that announces the record "x" (one byte, no '=') stops the discovery thread for good. *)
Theorem C12_termination_refuted : exists txt, forall fuel wraps, parse_txt fuel wraps txt = Loop.
Proof.
  exists [1; 120]. intros fuel wraps. apply parse_loop. apply (C12_never_ends_iff [1; 120] [[120]]).
  - apply (rec_cons 1 [120]). constructor.
  - exists [], [120], []. split; [reflexivity|]. split; [constructor|]. cbn. intros [H|[]]. discriminate.
Qed.
Print Assumptions C12_termination_refuted.
Example C12_ends_case : records (announce (T"Desk") (1, 2, 3, 4)) [T"StationName=Desk"; T"StationUUID=01000000-0200-0000-0300-000004000000"]
  /\ Forall (fun t => In 61 t) [T"StationName=Desk"; T"StationUUID=01000000-0200-0000-0300-000004000000"].
Proof.
  split.
  - change (announce (T"Desk") (1, 2, 3, 4)) with (16 :: T"StationName=Desk" ++ (48 :: T"StationUUID=01000000-0200-0000-0300-000004000000")).
    apply (rec_cons 16 (T"StationName=Desk" ++ (48 :: T"StationUUID=01000000-0200-0000-0300-000004000000"))). apply (rec_cons 48 (T"StationUUID=01000000-0200-0000-0300-000004000000")). constructor.
  - repeat (apply Forall_cons; [vm_compute; tauto|]). apply Forall_nil.
Qed.

(** The round trip. *)
Lemma station_text_facts w : words_ok w -> Forall (fun c => c <= 70) (station_text w) /\ set_from_chars (station_text w) = Some (station_text w)
  /\ List.length (station_text w) = 36%nat /\ (forall o, read_mvr_uuid true o (station_text w) = Ok (mkRd w true 0)).
Proof.
  intros H. destruct (words_text_eq w H) as (u & U & W & E).
  assert (Es : station_text w = uuid_text false u).
  { destruct w as [[[a b] c] d]. unfold words_text in E. unfold station_text. now inversion E. }
  rewrite Es. split; [|split; [exact (proj2 (ascii_wf8 _ (uuid_text_ascii u U)))|split]].
  - destruct U as [B L]. destruct (list16 u L) as (a&b&c&d&e&f&g&h&i&j&k&l&m&n&o&p&->). clear L Es E W.
    unfold bytes_ok, byte_ok in B. rewrite Forall_forall in B.
    assert (Q : forall x, In x [a;b;c;d;e;f;g;h;i;j;k;l;m;n;o;p] -> hexU (x / 16) <= 70 /\ hexU (x mod 16) <= 70).
    { intros x Hx. specialize (B x Hx). destruct (hexU_range (x / 16)); [lia|]. destruct (hexU_range (x mod 16)); lia. }
    assert (HB : forall l', incl l' [a;b;c;d;e;f;g;h;i;j;k;l;m;n;o;p] -> Forall (fun c => c <= 70) (hexbytes l')).
    { induction l' as [|x l' IH]; intros Hi; [constructor|]. change (hexbytes (x :: l')) with ([hexU (x / 16); hexU (x mod 16)] ++ hexbytes l').
      apply Forall_app. split; [|apply IH; intros y Hy; apply Hi; now right].
      destruct (Q x); [apply Hi; now left|]. repeat (apply Forall_cons; [lia|]). apply Forall_nil. }
    assert (D : Forall (fun c => c <= 70) (T"-")) by (change (Forall (fun c => c <= 70) [45]); apply Forall_cons; [lia|apply Forall_nil]).
    unfold uuid_text. cbv zeta. repeat match goal with |- Forall _ (hexbytes _) => apply HB | |- Forall _ (txt "-") => exact D | |- Forall _ (_ ++ _) => apply Forall_app; split end;
      cbn [firstn skipn]; intros y Hy; cbn [In] in *; tauto.
  - destruct U as [B L]. destruct (list16 u L) as (a&b&c&d&e&f&g&h&i&j&k&l&m&n&o&p&->). reflexivity.
  - intros o. destruct (C44_read u (uuid_text false u) [] U (or_intror (uuid_text_upper false u U))) as [_ R]. exact (R true w W o).
Qed.
(** No proper suffix of a key is the beginning of a key. *)
Lemma key_tail k v x r : In k [T"StationName="; T"StationUUID="] -> k ++ v = x :: r -> ~ occurs k v -> ~ occurs k r.
Proof.
  intros Hk E O H. assert (A : exists r0, r = r0 ++ v /\ k = x :: r0 /\ ~ In 83 r0).
  { destruct Hk as [<-|[<-|[]]]; inversion E; subst; [exists (T"tationName=")|exists (T"tationUUID=")];
      (split; [reflexivity|split; [reflexivity|vm_compute; intuition discriminate]]). }
  destruct A as (r0 & -> & Ek & N83).
  assert (Sx : x = 83) by (destruct Hk as [<-|[<-|[]]]; inversion Ek; reflexivity). subst x.
  apply occurs_app_clear in H as [H|H]; [contradiction| |].
  - destruct H as (a & b & F). apply N83. rewrite F, Ek. apply in_or_app. right. now left.
  - intros a b Ea Na Nb c F. destruct a as [|y a]; [congruence|]. rewrite Ek in Ea. inversion Ea; subst. apply N83.
    apply in_or_app. right. now left.
Qed.
Theorem C12_round_trip_partial : forall name w fuel, wf8 name -> ~ In 0 name -> nlen name <= 243 -> ~ occurs (T"StationName=") name ->
  words_ok w -> (2 <= fuel)%nat -> parse_txt fuel true (announce name w) = Ok (name, w).
Proof.
  intros name w fuel (cs & Fc & En) Z L O W F. destruct fuel as [|[|f]]; [lia|lia|]. clear F.
  assert (Sn : set_from_chars name = Some (enc16 cs)).
  { unfold set_from_chars. rewrite upto_nul_id by exact Z. apply from_bytes_iff. now exists cs. }
  assert (Bn : to_bytes (enc16 cs) = Some name).
  { apply to_bytes_iff; [apply enc16_units; exact Fc|]. now exists cs. }
  destruct (station_text_facts w W) as (S70 & Ss & Sl & Sr).
  unfold parse_txt, announce.
  set (t1 := T"StationName=" ++ name). set (t2 := T"StationUUID=" ++ station_text w).
  assert (L1 : nlen t1 < 256) by (unfold t1; rewrite nlen_app; change (nlen (T"StationName=")) with 12; lia).
  assert (L2 : nlen t2 < 256) by (unfold t2; rewrite nlen_app; change (nlen (T"StationUUID=")) with 12; unfold nlen; rewrite Sl; lia).
  assert (O1 : is_zero_at (last_at (T"StationName=") t1) = true).
  { apply last_zero. split; [now exists name|]. intros x r E. exact (key_tail _ _ _ _ (or_introl eq_refl) E O). }
  assert (O2 : is_zero_at (last_at (T"StationUUID=") t2) = true).
  { apply last_zero. split; [now exists (station_text w)|]. intros x r E. apply (key_tail _ _ _ _ (or_intror (or_introl eq_refl)) E).
    intros (a & b & H). rewrite H in S70. apply Forall_app in S70 as [_ S70]. inversion_clear S70 as [|? ? C _]. revert C. now vm_compute. }
  assert (O3 : is_zero_at (last_at (T"StationName=") t2) = false).
  { destruct (is_zero_at (last_at (T"StationName=") t2)) eqn:E; [|reflexivity]. apply last_zero in E as [(v & E) _]. exfalso.
    apply (f_equal (fun l => nth 7 l 0)) in E. discriminate E. }
  pose proof (txt_step_entry (S f) [] t1 (txt_entry t2) [] [] L1) as S1. cbn [app List.length] in S1. rewrite S1. clear S1.
  destruct (key_eq (T"StationName=") t1 name (or_introl eq_refl) eq_refl) as [Q1 Q2]. rewrite Q1. cbv iota zeta. rewrite Q2, O1, Sn. clear Q1 Q2.
  unfold txt_next. destruct (txt_entry t2) as [|c0 r0] eqn:Et; [discriminate|]. rewrite <- Et.
  pose proof (txt_step_entry f (txt_entry t1) t2 [] (enc16 cs) [] L2) as S2. rewrite app_nil_r in S2. rewrite S2. clear S2.
  destruct (key_eq (T"StationUUID=") t2 (station_text w) (or_intror (or_introl eq_refl)) eq_refl) as [Q1 Q2]. rewrite Q1. cbv iota zeta. rewrite Q2, O3, O2, Ss.
  cbn [txt_next bind snd fst]. rewrite Sr. cbn [bind]. rewrite Bn. cbn [rd_val]. rewrite upto_nul_id by exact Z.
  now replace (nlen name <? 1024) with true by lia.
Qed.
Print Assumptions C12_round_trip_partial.
Example C12_case : wf8 (T"Desk = 1") /\ ~ In 0 (T"Desk = 1") /\ nlen (T"Desk = 1") <= 243 /\ ~ occurs (T"StationName=") (T"Desk = 1") /\ words_ok (1, 2, 3, 4)
  /\ parse_txt 2 true (announce (T"Desk = 1") (1, 2, 3, 4)) = Ok (T"Desk = 1", (1, 2, 3, 4)).
Proof.
  split; [apply key_wf; reflexivity|]. split; [vm_compute; intuition discriminate|]. split; [discriminate|].
  split; [|split; [repeat split|vm_compute; reflexivity]]. apply last_at_none. reflexivity.
Qed.
(** A name of 244 bytes makes the length byte 0 and the discovery of every peer that sees it hangs. *)
Theorem C12_long_name_refuted : exists name w, wf8 name /\ ~ In 0 name /\ nlen name < 1024 /\ words_ok w
  /\ forall fuel wraps, parse_txt fuel wraps (announce name w) = Loop.
Proof.
  exists (repeat 97 244), (1, 2, 3, 4). split; [apply key_wf; reflexivity|]. split; [intros H; apply repeat_spec in H; discriminate|].
  split; [reflexivity|]. split; [repeat split|]. intros fuel wraps. apply parse_loop. unfold announce, txt_entry at 1.
  change (nlen (T"StationName=" ++ repeat 97 244) mod 256) with 0. cbn [app]. apply (txt_stuck fuel []). cbn. tauto.
Qed.
Print Assumptions C12_long_name_refuted.
(** A name that contains the key is not recognised at all. *)
Theorem C12_key_in_name_refuted : exists name w, wf8 name /\ ~ In 0 name /\ nlen name <= 243 /\ words_ok w
  /\ parse_txt 2 true (announce name w) = Ok ([], w) /\ name <> [].
Proof.
  exists (T"A StationName=B"), (1, 2, 3, 4). split; [apply key_wf; reflexivity|]. split; [vm_compute; intuition discriminate|].
  split; [discriminate|]. split; [repeat split|]. split; [vm_compute; reflexivity|discriminate].
Qed.
Print Assumptions C12_key_in_name_refuted.
