(** Properties C09 (group membership), C69 (service list access) and C70 (discovery filter). *)
From Coq Require Import List NArith ZArith String Bool Lia.
From Coq Require Import ZifyN ZifyNat ZifyBool.
From Verif Require Import Bytes BytesProofs Txt UtfSpec UtfModel UtfProofs NumModel NumProofs UuidModel ConvModel JsonModel JsonProofs MessageModel MessageProofs ServiceModel ServiceProofs ServiceProps.
Import ListNotations.
Open Scope N_scope.

(** ** C70. The discovery filter *)
(** What makes an answer acceptable on its own: it has an IPv4 address, none of its addresses with its port is one of
    the own announcements, and its name ends with the service type. *)
Definition acceptable (own : list (list N)) (q : query) : Prop :=
  qIP4 q <> [] /\ (forall ip, In ip (qIP4 q) -> ~ In (ip ++ T":" ++ dec (qPort q)) own)
  /\ exists a, qService q = a ++ T"_mvrxchange._tcp.local.".
Definition place (q : query) := (qPort q, qIP4 q, qIP6 q).
(** [chosen own seen l r]: [r] are the acceptable answers of [l] in order, of those with one place only the first,
    and none whose place is in [seen]. *)
Inductive chosen (own : list (list N)) : list (N * list (list N) * list (list N)) -> list query -> list query -> Prop :=
| ch_nil seen : chosen own seen [] []
| ch_yes seen q l r : acceptable own q -> ~ In (place q) seen -> chosen own (place q :: seen) l r -> chosen own seen (q :: l) (q :: r)
| ch_no seen q l r : ~ acceptable own q \/ In (place q) seen -> chosen own seen l r -> chosen own seen (q :: l) r.
Lemma same_address_iff q r : same_address q r = true <-> place q = place r.
Proof.
  unfold same_address, place. rewrite !andb_true_iff, !texts_eqb_iff, N.eqb_eq. split; [intros [[-> ->] ->]; reflexivity|].
  intros E. inversion E. tauto.
Qed.
Lemma is_own_iff own q : is_own own q = true <-> exists ip, In ip (qIP4 q) /\ In (ip ++ T":" ++ dec (qPort q)) own.
Proof.
  unfold is_own. rewrite existsb_exists. split.
  - intros (ip & H & E). apply existsb_exists in E as (o & Ho & E). apply str_eqb_iff in E. exists ip. split; [exact H|]. now rewrite E.
  - intros (ip & H & E). exists ip. split; [exact H|]. apply existsb_exists. eexists. split; [exact E|]. apply str_eqb_refl.
Qed.
Lemma is_service_iff q : is_service q = true <-> exists a, qService q = a ++ T"_mvrxchange._tcp.local.".
Proof.
  unfold is_service. fold service_suffix. rewrite andb_true_iff, starts_with_iff. split.
  - intros [_ (b & E)]. exists (rev b). apply (f_equal (@rev N)) in E. now rewrite rev_involutive, rev_app_distr, rev_involutive in E.
  - intros (a & ->). split; [rewrite nlen_app; lia|]. exists (rev a). now rewrite rev_app_distr.
Qed.
Lemma chosen_seen own seen seen' l r : (forall x, In x seen <-> In x seen') -> chosen own seen l r -> chosen own seen' l r.
Proof.
  intros E C. revert seen' E. induction C as [seen|seen q l r A N C IH|seen q l r H C IH]; intros seen' E; [constructor| |].
  - apply ch_yes; [exact A|now rewrite <- E|]. apply IH. intros x. cbn [In]. now rewrite E.
  - apply ch_no; [|now apply IH]. now rewrite <- E.
Qed.
Lemma filter_queries_chosen own : forall l out, exists r, filter_queries own out l = out ++ r /\ chosen own (map place out) l r.
Proof.
  induction l as [|q l IH]; intros out; cbn [filter_queries]; [exists []; split; [now rewrite app_nil_r|constructor]|].
  assert (no : (~ acceptable own q \/ In (place q) (map place out)) -> exists r, filter_queries own out l = out ++ r /\ chosen own (map place out) (q :: l) r).
  { intros H. destruct (IH out) as (r & E & C). exists r. split; [exact E|]. now apply ch_no. }
  destruct (existsb (same_address q) out) eqn:E1.
  - apply no. right. apply existsb_exists in E1 as (x & Hx & E). apply same_address_iff in E. rewrite E. now apply in_map.
  - destruct (nlen (qIP4 q) =? 0) eqn:E2.
    + apply no. left. intros (A & _). destruct (qIP4 q); [congruence|]. rewrite nlen_cons in E2. lia.
    + destruct (is_own own q) eqn:E3.
      * apply no. left. intros (_ & A & _). apply is_own_iff in E3 as (ip & H1 & H2). now apply (A ip).
      * destruct (is_service q) eqn:E4; cbn [negb].
        -- destruct (IH (out ++ [q])) as (r & E & C). exists (q :: r). split; [rewrite E, <- app_assoc; reflexivity|].
           apply ch_yes.
           ++ split; [intros H; rewrite H in E2; discriminate|]. split; [|now apply is_service_iff].
              intros ip Hi Ho. assert (is_own own q = true) by (apply is_own_iff; now exists ip). congruence.
           ++ intros H. apply in_map_iff in H as (x & Ex & Hx). assert (existsb (same_address q) out = true); [|congruence].
              apply existsb_exists. exists x. split; [exact Hx|]. now apply same_address_iff.
           ++ eapply chosen_seen; [|exact C]. intros x. rewrite map_app, in_app_iff. cbn [map In]. tauto.
        -- apply no. left. intros (_ & _ & A). apply is_service_iff in A. congruence.
Qed.
Theorem C70_filter : forall own l, chosen own [] l (filter_queries own [] l).
Proof. intros own l. destruct (filter_queries_chosen own l []) as (r & -> & C). exact C. Qed.
Print Assumptions C70_filter.
(** Consequences in plain terms. *)
Lemma chosen_facts own seen l r : chosen own seen l r ->
  (forall q, In q r -> In q l /\ acceptable own q /\ ~ In (place q) seen) /\ NoDup (map place r)
  /\ (forall q, In q l -> acceptable own q -> ~ In (place q) seen -> exists q', In q' r /\ place q' = place q).
Proof.
  induction 1 as [seen|seen q l r A N C (I1 & I2 & I3)|seen q l r H C (I1 & I2 & I3)].
  - split; [intros q []|]. split; [constructor|intros q []].
  - split; [|split].
    + intros x [<-|Hx]; [split; [now left|now split]|]. destruct (I1 x Hx) as (P & Q & R). split; [now right|]. split; [exact Q|].
      intros K. apply R. now right.
    + cbn [map]. constructor; [|exact I2]. intros K. apply in_map_iff in K as (x & Ex & Hx). apply (proj2 (proj2 (I1 x Hx))). left. now symmetry.
    + intros x [<-|Hx] Ax Sx; [exists q; split; [now left|reflexivity]|].
      assert (Deq : {place q = place x} + {place q <> place x}).
      { destruct (same_address q x) eqn:E; [left; now apply same_address_iff|right; intros F; apply same_address_iff in F; congruence]. }
      destruct Deq as [Deq|Deq]; [exists q; split; [now left|exact Deq]|].
      destruct (I3 x Hx Ax) as (y & Hy & Ey); [|exists y; split; [now right|exact Ey]]. intros [K|K]; [contradiction|contradiction].
  - split; [|split].
    + intros x Hx. destruct (I1 x Hx) as (P & Q & R). split; [now right|now split].
    + exact I2.
    + intros x [<-|Hx] Ax Sx; [destruct H; contradiction|]. now apply I3.
Qed.
Theorem C70_plain : forall own l,
  (forall q, In q (filter_queries own [] l) -> In q l /\ acceptable own q)
  /\ NoDup (map place (filter_queries own [] l))
  /\ (forall q, In q l -> acceptable own q -> exists q', In q' (filter_queries own [] l) /\ place q' = place q).
Proof.
  intros own l. destruct (chosen_facts _ _ _ _ (C70_filter own l)) as (A & B & C). split; [|split; [exact B|]].
  - intros q H. destruct (A q H) as (P & Q & _). now split.
  - intros q H Aq. apply C; auto.
Qed.
Print Assumptions C70_plain.
Definition q1 := mkQuery (T"Desk._mvrxchange._tcp.local.") (T"Group._mvrxchange._tcp.local.") (announce (T"Desk") (1, 2, 3, 4)) 5000 [T"10.0.0.1"] [].
Definition q2 := mkQuery (T"Desk._mvrxchange._tcp.local.") (T"Group._mvrxchange._tcp.local.") (announce (T"Desk") (1, 2, 3, 4)) 5000 [T"10.0.0.1"] [T"fe80::1"].
Definition q3 := mkQuery (T"printer._ipp._tcp.local.") (T"printer") [] 631 [T"10.0.0.9"] [].
Example C70_case : acceptable [T"10.0.0.5:5000"] q1 /\ filter_queries [T"10.0.0.5:5000"] [] [q3; q1; q1; q2] = [q1; q2]
  /\ filter_queries [T"10.0.0.1:5000"] [] [q1] = [].
Proof.
  split; [|split; reflexivity]. split; [discriminate|]. split; [|now exists (T"Desk.")].
  intros ip [<-|[]] [H|[]]. discriminate.
Qed.

(** ** C69. Access to the list of services *)
Theorem C69_in_range_partial : forall l i, i <> nlen l ->
  service_at l i = Ok (nth_error l (N.to_nat i)).
Proof.
  intros l i H. unfold service_at. destruct (N.ltb_spec (nlen l) i) as [L|L].
  - symmetry. f_equal. apply nth_error_None. unfold nlen in L. lia.
  - destruct (nth_error l (N.to_nat i)) eqn:E; [reflexivity|]. apply nth_error_None in E. unfold nlen in *. lia.
Qed.
Print Assumptions C69_in_range_partial.
Definition f1 := mkFound (T"Group._mvrxchange._tcp.local.") (1, 2, 3, 4) (T"Desk") [T"10.0.0.1"] [] 5000.
Example C69_case : service_at [f1] 0 = Ok (Some f1) /\ service_at [f1] 2 = Ok None.
Proof. split; reflexivity. Qed.
(** The index one past the end is read: on every list. *)
Theorem C69_past_the_end : forall l, service_at l (nlen l) = UB.
Proof.
  intros l. unfold service_at. rewrite N.ltb_irrefl. destruct (nth_error l (N.to_nat (nlen l))) eqn:E; [|reflexivity].
  assert (nth_error l (N.to_nat (nlen l)) <> None) as H by congruence. apply nth_error_Some in H. unfold nlen in H. lia.
Qed.
Print Assumptions C69_past_the_end.
Theorem C69_bounds_refuted : exists l i, nth_error l (N.to_nat i) = None /\ service_at l i = UB.
Proof. exists [f1], 1. split; reflexivity. Qed.
Print Assumptions C69_bounds_refuted.

(** ** C09. Group membership *)
Definition at_place (m : member) := (gIPs m, gPort m).
Lemma same_place_iff a b : same_place a b = true <-> at_place a = at_place b.
Proof.
  unfold same_place, at_place. rewrite andb_true_iff, texts_eqb_iff, N.eqb_eq. split; [intros [-> ->]; reflexivity|]. intros E. inversion E. tauto.
Qed.
Lemma put_places g m : map at_place (put_member g m) = map at_place g /\ In (at_place m) (map at_place g)
  \/ map at_place (put_member g m) = map at_place g ++ [at_place m] /\ ~ In (at_place m) (map at_place g).
Proof.
  induction g as [|x g IH]; cbn [put_member map]; [right; split; [reflexivity|intros []]|].
  destruct (same_place x m) eqn:E.
  - apply same_place_iff in E. left. cbn [map]. rewrite E. split; [reflexivity|now left].
  - assert (at_place x <> at_place m) by (intros F; apply same_place_iff in F; congruence). cbn [map].
    destruct IH as [[-> H']|[-> H']]; [left; split; [reflexivity|now right]|]. right. split; [reflexivity|]. intros [K|K]; contradiction.
Qed.
Lemma put_nodup g m : NoDup (map at_place g) -> NoDup (map at_place (put_member g m)).
Proof.
  intros N. destruct (put_places g m) as [[-> _]|[-> H]]; [exact N|].
  apply NoDup_rev in N. rewrite <- (rev_involutive (_ ++ _)). apply NoDup_rev. rewrite rev_app_distr. cbn. constructor; [|exact N].
  now rewrite <- in_rev.
Qed.
Lemma filter_nodup {A B} (f : A -> B) (p : A -> bool) : forall l, NoDup (map f l) -> NoDup (map f (filter p l)).
Proof.
  induction l as [|x l IH]; intros N; [constructor|]. cbn [map filter] in *. inversion_clear N as [|? ? H N'].
  destruct (p x); [|now apply IH]. cbn [map]. constructor; [|now apply IH]. intros K. apply H.
  apply in_map_iff in K as (y & E & Hy). apply in_map_iff. exists y. split; [exact E|]. now apply filter_In in Hy.
Qed.
(** Answers of the network where a place has one IPv6 set, and addresses are ordinary texts. *)
Definition plain_answers (qs : list query) : Prop :=
  (forall q r, In q qs -> In r qs -> qIP4 q = qIP4 r -> qPort q = qPort r -> qIP6 q = qIP6 r)
  /\ (forall q ip, In q qs -> In ip (qIP4 q) -> nlen ip < 1024 /\ ~ In 0 ip).
Lemma map_fixed l : (forall ip, In ip l -> nlen ip < 1024 /\ ~ In 0 ip) -> map fixed_text l = l.
Proof.
  induction l as [|x l IH]; intros H; [reflexivity|]. cbn [map]. destruct (H x (or_introl eq_refl)). rewrite fixed_id by assumption.
  rewrite IH; [reflexivity|]. intros ip K. apply H. now right.
Qed.
Definition f_place (f : found) := (fdIPs f, fdPort f).
Definition q_place (q : query) := (qIP4 q, qPort q).
Lemma all_found_places fuel wraps : forall l fs, all_found fuel wraps l = Ok fs ->
  (forall q ip, In q l -> In ip (qIP4 q) -> nlen ip < 1024 /\ ~ In 0 ip) -> map f_place fs = map q_place l.
Proof.
  induction l as [|q l IH]; intros fs E H; cbn [all_found] in E; [inversion E; reflexivity|].
  unfold to_found in E. destruct (parse_txt fuel wraps (qTxt q)) as [p| | |]; try discriminate. cbn [bind] in E.
  destruct (all_found fuel wraps l) as [fs'| | |] eqn:El; try discriminate. cbn [bind] in E. inversion E; subst. cbn [map].
  rewrite (IH fs' eq_refl (fun q0 ip Hq => H q0 ip (or_intror Hq))).
  unfold f_place, q_place. cbn [fdIPs fdPort]. rewrite map_fixed; [reflexivity|]. intros ip K. exact (H q ip (or_introl eq_refl) K).
Qed.
Lemma task_distinct fuel wraps own qs fs : plain_answers qs -> client_task fuel wraps own qs = Ok fs -> NoDup (map f_place fs).
Proof.
  intros (P1 & P2) E. unfold client_task in E. destruct (C70_plain own qs) as (A & N & _).
  rewrite (all_found_places fuel wraps _ fs E) by (intros q ip Hq Hi; apply (P2 q ip); [now apply A|exact Hi]).
  revert A N. generalize (filter_queries own [] qs). clear E fs. intros l A N.
  induction l as [|q l IH]; [constructor|]. cbn [map] in *. inversion_clear N as [|? ? H N']. constructor; [|apply IH; [intros x Hx; apply A; now right|exact N']].
  intros K. apply in_map_iff in K as (r & Er & Hr). apply H. apply in_map_iff. exists r. split; [|exact Hr].
  unfold q_place in Er. unfold place. inversion Er as [[E1 E2]]. rewrite E1, E2.
  rewrite (P1 r q (proj1 (A r (or_intror Hr))) (proj1 (A q (or_introl eq_refl))) E1 E2). reflexivity.
Qed.
Lemma members_distinct fs name : NoDup (map f_place fs) -> NoDup (map at_place (members_of_service fs name)).
Proof.
  intros N. unfold members_of_service. rewrite map_map. apply (filter_nodup f_place (fun f => str_eqb (fdService f) (name ++ T"." ++ service_suffix))) in N. exact N.
Qed.
Definition distinct (s : service) : Prop := NoDup (map at_place (sGroup s)) /\ NoDup (map f_place (sFound s)).
(** Histories without a late addition: every event except the posted function. *)
Definition early (e : event) : Prop :=
  match e with EConnect _ _ qs | ETick qs => plain_answers qs | EJoin _ | ELeave _ => True | ERun _ => False end.
Lemma step_distinct fuel wraps s e s' : early e -> distinct s -> on_event fuel wraps s e = Ok s' -> distinct s'.
Proof.
  intros He (D1 & D2) E. destruct e as [name own qs|u|u|qs|qs]; cbn [on_event early] in *.
  - unfold on_connect in E. cbn [sInit] in E. destruct (sInit s); cbn [bind] in E.
    + inversion E; subst. split; cbn [sGroup sFound set_group]; [|exact D2]. now apply members_distinct.
    + destruct (client_task fuel wraps own qs) as [fs| | |] eqn:Et; try discriminate. cbn [bind] in E. inversion E; subst.
      split; cbn [sGroup sFound set_group set_found]; [apply members_distinct|]; eapply task_distinct; eassumption.
  - inversion E; subst. unfold on_join. destruct (single_member _ _); split; cbn; auto. now apply put_nodup.
  - inversion E; subst. unfold on_leave. destruct (single_member _ _); split; cbn; auto. now apply filter_nodup.
  - destruct (client_task fuel wraps (sOwn s) qs) as [fs| | |] eqn:Et; try discriminate. cbn [bind] in E. inversion E; subst.
    split; cbn; [exact D1|]. eapply task_distinct; eassumption.
  - destruct He.
Qed.
Theorem C09_distinct_partial : forall fuel wraps l s, Forall early l -> history fuel wraps new_service l = Ok s ->
  NoDup (map at_place (sGroup s)).
Proof.
  intros fuel wraps l s F E. assert (G : forall l s0, Forall early l -> distinct s0 -> history fuel wraps s0 l = Ok s -> distinct s).
  { clear. induction l as [|e l IH]; intros s0 F D E; cbn [history] in E; [inversion E; now subst|]. inversion_clear F as [|? ? F1 F2].
    destruct (on_event fuel wraps s0 e) as [s1| | |] eqn:E1; try discriminate. cbn [bind] in E. apply (IH s1); auto. eapply step_distinct; eassumption. }
  apply (G l new_service F); [split; constructor|exact E].
Qed.
Print Assumptions C09_distinct_partial.
Example C09_case : Forall early [EConnect (T"Group") [T"10.0.0.5:5000"] [q1]; EJoin (1, 2, 3, 4); ELeave (9, 9, 9, 9)]
  /\ exists s, history 5 true new_service [EConnect (T"Group") [T"10.0.0.5:5000"] [q1]; EJoin (1, 2, 3, 4); ELeave (9, 9, 9, 9)] = Ok s
  /\ sGroup s = [mkMember [T"10.0.0.1"] 5000 (T"Desk") (1, 2, 3, 4)].
Proof.
  split.
  - repeat (apply Forall_cons); try exact I; try apply Forall_nil. split.
    + intros q r [<-|[]] [<-|[]]. reflexivity.
    + intros q ip [<-|[]] [<-|[]]. split; [reflexivity|]. vm_compute. intuition discriminate.
  - eexists. split; [vm_compute; reflexivity|]. reflexivity.
Qed.
(** A late addition keeps the list free of duplicates exactly when its place is new. *)
Theorem C09_late_iff : forall fuel wraps s qs u r fs m, sPending s = u :: r -> client_task fuel wraps (sOwn s) qs = Ok fs ->
  single_member fs u = Some m -> NoDup (map at_place (sGroup s)) ->
  exists s', on_event fuel wraps s (ERun qs) = Ok s' /\ sGroup s' = sGroup s ++ [m]
    /\ (NoDup (map at_place (sGroup s')) <-> ~ In (at_place m) (map at_place (sGroup s))).
Proof.
  intros fuel wraps s qs u r fs m P T1 S1 N. cbn [on_event]. unfold on_run. rewrite P, T1. cbn [bind]. rewrite S1. eexists. split; [reflexivity|].
  cbn [set_group sGroup]. split; [reflexivity|]. rewrite map_app. cbn [map]. split.
  - intros H K. apply NoDup_remove_2 in H. apply H. now rewrite app_nil_r.
  - intros H. apply NoDup_rev in N. rewrite <- (rev_involutive (_ ++ _)). apply NoDup_rev. rewrite rev_app_distr. cbn. constructor; [|exact N].
    now rewrite <- in_rev.
Qed.
Print Assumptions C09_late_iff.
Example C09_late_case : exists s qs u r fs m, sPending s = u :: r /\ client_task 5 true (sOwn s) qs = Ok fs /\ single_member fs u = Some m
  /\ NoDup (map at_place (sGroup s)) /\ ~ In (at_place m) (map at_place (sGroup s)).
Proof.
  exists (mkService [] [] true [] [(1, 2, 3, 4)]), [q1], (1, 2, 3, 4), [], [f1], (mkMember [T"10.0.0.1"] 5000 (T"Desk") (1, 2, 3, 4)).
  repeat split; try (vm_compute; reflexivity); [constructor|intros []].
Qed.
(** A station that sends its join twice before the discovery has seen it is listed twice. *)
Theorem C09_duplicate_refuted : exists l s m, history 5 true new_service l = Ok s /\ sGroup s = [m; m].
Proof.
  exists [EConnect (T"Group") [T"10.0.0.5:5000"] []; EJoin (1, 2, 3, 4); EJoin (1, 2, 3, 4); ERun [q1]; ERun [q1]].
  eexists. exists (mkMember [T"10.0.0.1"] 5000 (T"Desk") (1, 2, 3, 4)). split; vm_compute; reflexivity.
Qed.
Print Assumptions C09_duplicate_refuted.
(** The same without any message: one station answers once without and once with an IPv6 address. *)
Theorem C09_duplicate_answer_refuted : exists qs s m, history 5 true new_service [EConnect (T"Group") [] qs] = Ok s /\ sGroup s = [m; m].
Proof.
  exists [q1; q2]. eexists. exists (mkMember [T"10.0.0.1"] 5000 (T"Desk") (1, 2, 3, 4)). split; vm_compute; reflexivity.
Qed.
Print Assumptions C09_duplicate_answer_refuted.

(** Leaving: in every state, no entry with an identifier other than zero is removed by any leave message, whoever
    sends it. *)
Theorem C09_leave_keeps : forall fuel wraps s u m, In m (sGroup s) -> gStation m <> no_words ->
  exists s', on_event fuel wraps s (ELeave u) = Ok s' /\ In m (sGroup s').
Proof.
  intros fuel wraps s u m H Z. cbn [on_event]. eexists. split; [reflexivity|]. unfold on_leave.
  destruct (single_member (sFound s) u); [exact H|]. cbn. apply filter_In. split; [exact H|].
  destruct (words_eqb (gStation m) no_words) eqn:E; [|reflexivity]. apply words_eqb_iff in E. contradiction.
Qed.
Print Assumptions C09_leave_keeps.
(** A station that joined and left stays in the list, whether or not the discovery still sees it. *)
Theorem C09_left_refuted : exists l l' s s' m, In (ELeave (gStation m)) l /\ history 5 true new_service l = Ok s /\ In m (sGroup s)
  /\ In (ELeave (gStation m)) l' /\ history 5 true new_service l' = Ok s' /\ In m (sGroup s') /\ sFound s' = [].
Proof.
  exists [EConnect (T"Group") [] [q1]; ELeave (1, 2, 3, 4)], [EConnect (T"Group") [] [q1]; ETick []; ELeave (1, 2, 3, 4)].
  eexists. eexists. exists (mkMember [T"10.0.0.1"] 5000 (T"Desk") (1, 2, 3, 4)).
  split; [right; now left|]. split; [vm_compute; reflexivity|]. split; [now left|].
  split; [right; right; now left|]. split; [vm_compute; reflexivity|]. split; [now left|reflexivity].
Qed.
Print Assumptions C09_left_refuted.
(** What a leave message does remove: the entries with the zero identifier (stations whose announcement carried
    none), all of them, when the sender is unknown. *)
Theorem C09_leave_removes : forall fuel wraps s u s' m, on_event fuel wraps s (ELeave u) = Ok s' ->
  (In m (sGroup s) /\ ~ In m (sGroup s') <-> In m (sGroup s) /\ gStation m = no_words /\ ~ In u (map fdStation (sFound s))).
Proof.
  intros fuel wraps s u s' m E. cbn [on_event] in E. inversion E; subst. unfold on_leave, single_member.
  destruct (List.find _ (sFound s)) eqn:F.
  - apply find_some in F as [F1 F2]. apply words_eqb_iff in F2. split; [tauto|]. intros (H & _ & K). exfalso. apply K. apply in_map_iff. exists f. now split.
  - cbn [set_group sGroup]. rewrite filter_In. split.
    + intros [H K]. split; [exact H|]. split.
      * destruct (words_eqb (gStation m) no_words) eqn:W; [now apply words_eqb_iff|]. exfalso. apply K. now split.
      * intros I. apply in_map_iff in I as (f & Ef & Hf). pose proof (find_none _ _ F f Hf) as X. cbv beta in X.
        assert (words_eqb (fdStation f) u = true) by (now apply words_eqb_iff). congruence.
    + intros (H & Z & _). split; [exact H|]. intros [_ K]. rewrite Z in K. discriminate.
Qed.
Print Assumptions C09_leave_removes.
Example C09_leave_case : exists s s' m, on_event 5 true s (ELeave (9, 9, 9, 9)) = Ok s' /\ In m (sGroup s) /\ gStation m = no_words /\ sGroup s' = [].
Proof.
  exists (mkService [mkMember [T"10.0.0.7"] 1 [] no_words] [] true [] []). eexists. exists (mkMember [T"10.0.0.7"] 1 [] no_words).
  split; [vm_compute; reflexivity|]. split; [now left|]. split; reflexivity.
Qed.

(** Joining: the entry of a station the discovery knows is brought up to date (name, identifier); the entries at
    other places stay, and nothing else appears. *)
Theorem C09_join_updates : forall fuel wraps s u before f after s',
  sFound s = before ++ f :: after -> (forall x, In x before -> fdStation x <> u) -> fdStation f = u ->
  on_event fuel wraps s (EJoin u) = Ok s' ->
  In (mkMember (fdIPs f) (fdPort f) (fdName f) u) (sGroup s')
  /\ (forall x, In x (sGroup s) -> at_place x <> (fdIPs f, fdPort f) -> In x (sGroup s'))
  /\ (forall x, In x (sGroup s') -> x = mkMember (fdIPs f) (fdPort f) (fdName f) u \/ In x (sGroup s)).
Proof.
  intros fuel wraps s u before f after s' E Hb Hf Ev. cbn [on_event] in Ev. inversion Ev; subst s'. clear Ev.
  assert (F : List.find (fun f => words_eqb (fdStation f) u) (sFound s) = Some f).
  { rewrite E. clear E. induction before as [|x before IH]; cbn [app List.find].
    - replace (words_eqb (fdStation f) u) with true; [reflexivity|]. symmetry. now apply words_eqb_iff.
    - destruct (words_eqb (fdStation x) u) eqn:K; [apply words_eqb_iff in K; exfalso; apply (Hb x); [now left|exact K]|].
      apply IH. intros y Hy. apply Hb. now right. }
  unfold on_join, single_member. rewrite F. cbn [set_group sGroup]. clear F E Hb.
  set (m := mkMember (fdIPs f) (fdPort f) (fdName f) u). change (fdIPs f, fdPort f) with (at_place m).
  generalize (sGroup s) as g. clearbody m. intros g.
  induction g as [|x g (I1 & I2 & I3)]; cbn [put_member].
  - split; [now left|]. split; [intros x []|]. intros x [<-|[]]. now left.
  - destruct (same_place x m) eqn:K.
    + apply same_place_iff in K. split; [now left|]. split.
      * intros y [<-|Hy] Hp; [contradiction|now right].
      * intros y [<-|Hy]; [now left|right; now right].
    + split; [now right|]. split.
      * intros y [<-|Hy] Hp; [now left|right; now apply I2].
      * intros y [<-|Hy]; [right; now left|]. destruct (I3 y Hy); [now left|right; now right].
Qed.
Print Assumptions C09_join_updates.
(** A station that changed its name and identifier, same address and port. *)
Example C09_join_case : exists s s', on_event 5 true s (EJoin (9, 9, 9, 9)) = Ok s'
  /\ sGroup s = [mkMember [T"10.0.0.7"] 1 (T"Old") (1, 1, 1, 1)] /\ sGroup s' = [mkMember [T"10.0.0.7"] 1 (T"New") (9, 9, 9, 9)].
Proof.
  exists (mkService [mkMember [T"10.0.0.7"] 1 (T"Old") (1, 1, 1, 1)] [mkFound [] (9, 9, 9, 9) (T"New") [T"10.0.0.7"] [] 1] true [] []).
  eexists. split; [vm_compute; reflexivity|]. split; reflexivity.
Qed.
