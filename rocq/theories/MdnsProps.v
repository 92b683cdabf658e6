(** Theorems about the DNS messages of the service discovery. *)
From Coq Require Import String List NArith ZArith Lia Bool Arith.
From Coq Require Import ZifyN ZifyNat ZifyBool.
From Verif Require Import Bytes BytesProofs Txt NumModel JsonModel JsonProofs UtfSpec UtfModel UtfProofs MessageModel MessageProofs ServiceModel ServiceProofs ServiceProps XmlRef.
From Verif Require Import MdnsModel MdnsSpec MdnsProofs MdnsWrite MdnsMessages MdnsAnswer MdnsFound MdnsEnds MdnsMerge.
Import ListNotations.
Open Scope N_scope.
Ltac Zify.zify_post_hook ::= idtac.

(** ** C80: names *)
(** A name made of labels of 1 to 63 bytes is written as RFC 1035 says, whenever it fits. *)
Theorem C80_written : forall cap s ls, names s ls -> name_make cap s = Ok (if nlen (wire ls) <=? cap then Some (wire ls) else None).
Proof. intros cap s ls H. rewrite (make_names s ls cap H). unfold fits. destruct (_ <=? _); reflexivity. Qed.
Print Assumptions C80_written.
(** A name that follows RFC 1035 is read as its labels with dots, as far as the buffer goes; both readers
    find its end.  The name may end with references, but none to another reference. *)
Theorem C80_read_partial : forall m size off ls e cap fuel, spelled false m size off ls e -> (List.length ls < fuel)%nat ->
  name_skip m size off = Ok (Some e) /\
  exists x, extract fuel m size off cap = Ok x /\ name_text x = firstn (N.to_nat cap) (dotted ls) /\ xOffset x = e.
Proof. intros m size off ls e cap fuel Sp Fu. split; [exact (name_skip_spelled _ _ _ _ _ Sp)|exact (name_text_extract fuel m size off cap ls e Sp Fu)]. Qed.
Print Assumptions C80_read_partial.
(** What is written can be read wherever it stands. *)
Theorem C80_round_trip_partial : forall cap s ls b pre post size fuel, names s ls -> name_make cap s = Ok (Some b) -> nlen (dotted ls) <= 256 ->
  nlen pre + nlen b <= size -> (List.length ls < fuel)%nat ->
  name_skip (pre ++ b ++ post) size (nlen pre) = Ok (Some (nlen pre + nlen b)) /\
  exists x, extract fuel (pre ++ b ++ post) size (nlen pre) 256 = Ok x /\ name_text x = dotted ls /\ xOffset x = nlen pre + nlen b.
Proof.
  intros cap s ls b pre post size fuel H M L Sz Fu. rewrite (C80_written cap s ls H) in M. destruct (_ <=? _); [|discriminate M]. injection M as <-.
  pose proof (spelled_wire false pre ls post size (names_labels s ls H) Sz) as Sp.
  destruct (C80_read_partial _ _ _ _ _ 256 fuel Sp Fu) as (A&x&B&C&D). split; [exact A|]. exists x. split; [exact B|]. split; [|exact D].
  rewrite C. apply firstn_all2. unfold nlen in L. lia.
Qed.
Print Assumptions C80_round_trip_partial.
(** The same with a reference for the end of the name. *)
Theorem C80_reference_partial : forall cap s ls b pre post size t ls' e, names s ls -> make_with_ref cap s t = Ok (Some b) -> nlen (wire ls) < cap -> t < 16384 -> t < size ->
  nlen pre + nlen b <= size -> let m := pre ++ b ++ post in (exists c, byte_at m t c /\ c < 192) -> spelled false m size t ls' e ->
  spelled false m size (nlen pre) (ls ++ ls') (nlen pre + nlen b).
Proof.
  intros cap s ls b pre post size t ls' e H M L T1 T2 Sz m C Sp. rewrite (make_with_ref_ok s ls cap t H L T1) in M. injection M as <-. unfold m in *. clear m.
  rewrite nlen_app, nlen_ref in *. rewrite <- app_assoc in *. rewrite N.add_assoc. apply (spelled_ref false pre ls t post size ls' e); try assumption; [exact (names_labels s ls H)|lia|]. right. exact C.
Qed.
Print Assumptions C80_reference_partial.
(** Two names are equal to mdns_string_equal exactly when their labels are, up to the case of ASCII letters. *)
Theorem C80_equal_partial : forall m1 size1 off1 ls1 e1 m2 size2 off2 ls2 e2 fuel, spelled false m1 size1 off1 ls1 e1 -> spelled false m2 size2 off2 ls2 e2 ->
  Forall (fun l => ~ In 0 l) ls2 -> (List.length ls1 < fuel)%nat ->
  (same_labels ls1 ls2 -> equal_loop fuel m1 size1 off1 None m2 size2 off2 None = Ok (Some (e1, e2))) /\
  (~ same_labels ls1 ls2 -> equal_loop fuel m1 size1 off1 None m2 size2 off2 None = Ok None).
Proof.
  intros m1 size1 off1 ls1 e1 m2 size2 off2 ls2 e2 fuel S1 S2 Z Fu.
  destruct (equal_spelled m1 size1 m2 size2 ls1 ls2 off1 e1 off2 e2 None None S1 S2 Z fuel (or_introl Fu)) as [[A B]|[A B]]; (split; [|]); intros H; try contradiction; exact B.
Qed.
Print Assumptions C80_equal_partial.
Example C80_case : names (T"Desk._mvrxchange._tcp.local") [T"Desk"; T"_mvrxchange"; T"_tcp"; T"local"]
  /\ spelled false ([9] ++ wire [T"_tcp"; T"local"] ++ 4 :: T"Desk" ++ [192; 1] ++ [77]) 20 13 [T"Desk"; T"_tcp"; T"local"] 20
  /\ same_labels [T"DESK"; T"local"] [T"desk"; T"Local"].
Proof.
  assert (LB : forall l, (1 <=? nlen l) && (nlen l <=? 63) && forallb (fun c => negb (c =? 46)) l = true -> label l).
  { intros l H. apply andb_true_iff in H as [H D]. split; [lia|]. intros I. rewrite forallb_forall in D. specialize (D 46 I). discriminate D. }
  split; [|split].
  - apply (names_open _ _ [T"Desk"; T"_mvrxchange"; T"_tcp"] (T"local")); try reflexivity; [|apply LB; reflexivity]. repeat constructor; try (vm_compute; discriminate); vm_compute; intuition discriminate.
  - pose proof (spelled_ref false ([9] ++ wire [T"_tcp"; T"local"]) [T"Desk"] 1 [77] 20 [T"_tcp"; T"local"] 13) as X. apply X; try reflexivity; try (vm_compute; discriminate).
    + repeat constructor; try (vm_compute; discriminate); vm_compute; intuition discriminate.
    + right. exists 4. split; [reflexivity|lia].
    + apply (spelled_wire false [9] [T"_tcp"; T"local"] _ 20); [|vm_compute; discriminate]. repeat constructor; try (vm_compute; discriminate); vm_compute; intuition discriminate.
  - repeat constructor.
Qed.
(** A label of 192 or more bytes is written with a length that reads as a reference. *)
Theorem C80_long_label_refuted : exists s b, name_make 512 s = Ok (Some b) /\ nlen s = 200 /\ name_skip b (nlen b) 0 = Ok None
  /\ exists x, extract 10 b (nlen b) 0 256 = Ok x /\ name_text x = [].
Proof. exists (repeat 97 200). eexists. split; [vm_compute; reflexivity|]. split; [reflexivity|]. split; [vm_compute; reflexivity|]. eexists. split; vm_compute; reflexivity. Qed.
Print Assumptions C80_long_label_refuted.
(** An empty label ends the name. *)
Theorem C80_empty_label_refuted : exists s b x, name_make 512 s = Ok (Some b) /\ extract 10 b (nlen b) 0 256 = Ok x /\ s = T"a..b." /\ name_text x = T"a.".
Proof. do 3 eexists. split; [|split; [|split; [reflexivity|]]]; [vm_compute; reflexivity|vm_compute; reflexivity|vm_compute; reflexivity]. Qed.
Print Assumptions C80_empty_label_refuted.
(** RFC 1035 allows a reference to a name that ends with a reference, also to one that only is one. *)
Theorem C80_chain_refuted : exists m size off ls e x, spelled true m size off ls e /\ extract 10 m size off 256 = Ok x /\ name_text x <> dotted ls.
Proof.
  exists [1; 97; 0; 192; 0; 192; 3], 7, 5, [[97]], 7. eexists. split; [|split; [vm_compute; reflexivity|vm_compute; discriminate]].
  apply (sp_ref true _ _ 5 3 _ 5); [reflexivity|reflexivity|lia|lia|lia|left; reflexivity|].
  apply (sp_ref true _ _ 3 0 _ 3); [reflexivity|reflexivity|lia|lia|lia|left; reflexivity|].
  apply sp_label; [reflexivity|vm_compute; split; discriminate|vm_compute; discriminate|reflexivity|]. apply (sp_end true _ _ 2); [reflexivity|lia].
Qed.
Print Assumptions C80_chain_refuted.

(** ** C81: reading a name of any message ends and stays in the buffer *)
Theorem C81_skip_ends : forall m size off, name_skip m size off <> Loop /\ is_services m size off <> Loop.
Proof.
  intros m size off. split; [|apply is_services_ends]. unfold name_skip. destruct (skip_ends m size (S (S (N.to_nat size))) off ltac:(lia)) as [->|[o ->]]; discriminate.
Qed.
Print Assumptions C81_skip_ends.
(** If one byte of the buffer is left behind the message: no access outside, and no more than the capacity is written. *)
Theorem C81_inside_partial : forall m size off cap fuel, size < nlen m -> off < nlen m ->
  (exists o, name_skip m size off = Ok o /\ forall e, o = Some e -> off < e <= N.max size off + 1) /\
  (extract fuel m size off cap = Loop \/ exists x, extract fuel m size off cap = Ok x /\ nlen (xWritten x) <= cap /\ xLength x <= cap).
Proof.
  intros m size off cap fuel S1 O1. split.
  - destruct (skip_inside m size S1 (S (S (N.to_nat size))) off ltac:(lia) O1) as (o&A&B). exists o. split; [exact A|]. exact B.
  - unfold extract. destruct (extract_inside m size S1 fuel off None [] cap O1) as [->|(w&r&o&->&B)]; [left; reflexivity|right]. cbn [bind fst snd]. change (nlen (@nil N)) with 0 in B.
    destruct o as [e|]; eexists; (split; [reflexivity|]); cbn [xWritten xLength]; lia.
Qed.
Print Assumptions C81_inside_partial.
Example C81_case : let m := header 0 0 1 0 0 0 ++ [3; 97; 98; 99; 192; 3; 0; 12; 0; 1] ++ repeat 255 10 in nlen (header 0 0 1 0 0 0 ++ [3; 97; 98; 99; 192; 3; 0; 12; 0; 1]) < nlen m
  /\ name_skip m 22 12 = Ok (Some 18) /\ exists x, extract 10 m 22 12 256 = Ok x /\ name_text x = T"abc.".
Proof. split; [vm_compute; reflexivity|]. split; [vm_compute; reflexivity|]. eexists. split; vm_compute; reflexivity. Qed.
(** A label and then a reference back to it: mdns_string_extract never ends. *)
Lemma extract_forever m size c p : next_part m size c = Ok (Some p) -> pLen p <> 0 -> pOff p + pLen p = c -> pOff p + pLen p <= nlen m ->
  forall fuel fin out remain, extract_loop fuel m size c fin out remain = Loop.
Proof.
  intros P L C In. induction fuel as [|f IH]; intros fin out remain; [reflexivity|]. cbn [extract_loop]. rewrite P. cbn [bind]. cbv zeta. rewrite (proj2 (N.eqb_neq _ _)) by exact L.
  set (n := if pLen p <? remain then pLen p else remain). assert (n <= pLen p) by (unfold n; destruct (N.ltb_spec (pLen p) remain); lia).
  rewrite rd_bytes_ok by lia. cbn [bind]. rewrite C. destruct (remain - n =? 0); cbn [bind fst snd]; apply IH.
Qed.
Definition knot : list N := [1; 97; 192; 12].
Section Knot.
Variable m : list N.
Variable size : N.
Hypothesis P12 : next_part m size 12 = Ok (Some (mkPart 13 1 false)).
Hypothesis P14 : next_part m size 14 = Ok (Some (mkPart 13 1 true)).
Lemma knot_services : is_services m size 12 = Ok None.
Proof.
  assert (Q : next_part services_query (nlen services_query) 12 = Ok (Some (mkPart 13 9 false))) by (vm_compute; reflexivity).
  assert (K : forall f m2 size2, next_part m2 size2 12 = Ok (Some (mkPart 13 9 false)) -> equal_loop (S f) m size 12 None m2 size2 12 None = Ok None).
  { intros f m2 size2 P. cbn [equal_loop]. rewrite P12, P. reflexivity. }
  unfold is_services. rewrite (K 5%nat _ _ Q). reflexivity.
Qed.
Lemma knot_skip : name_skip m size 12 = Ok (Some 16).
Proof.
  unfold name_skip. cbn [skip_loop]. rewrite P12. cbn [bind pRef pLen pOff]. change (1 =? 0) with false. cbv iota. change (13 + 1) with 14. rewrite P14. reflexivity.
Qed.
Lemma knot_extract fuel : 14 <= nlen m -> extract fuel m size 12 256 = Loop.
Proof.
  intros In. assert (X : extract_loop fuel m size 12 None [] 256 = Loop).
  { destruct fuel as [|f]; [reflexivity|]. cbn [extract_loop]. rewrite P12. cbn [bind pRef pLen pOff]. cbv zeta. change (1 =? 0) with false. cbv iota. change (if 1 <? 256 then 1 else 256) with 1.
    rewrite rd_bytes_ok by lia. cbn [bind]. change (256 - 1 =? 0) with false. cbv iota. cbn [bind fst snd]. change (13 + 1) with 14. apply (extract_forever m size 14 _ P14); [discriminate|reflexivity|exact In]. }
  unfold extract. rewrite X. reflexivity.
Qed.
End Knot.
(** Such a question, of 20 bytes, keeps the thread that announces a station busy forever; such an answer
    the one that looks for stations. *)
Theorem C81_knot_refuted : exists question answer, nlen question = 20 /\ nlen answer = 26 /\
  (forall fuel a rest, listen fuel a (question ++ rest) (nlen question) = Loop) /\
  (forall fuel t4 t6 from c rest, query_recv collected (query_callback fuel t4 t6 from) (answer ++ rest) (nlen answer) 0 c = Loop).
Proof.
  exists (header 0 0 1 0 0 0 ++ knot ++ [0; 12; 0; 1]), (header 0 33792 0 1 0 0 ++ knot ++ [0; 12; 0; 1; 0; 0; 0; 9; 0; 0]). split; [reflexivity|]. split; [reflexivity|]. split.
  - intros fuel a rest. set (m := _ ++ rest). set (size := nlen _).
    assert (P12 : next_part m size 12 = Ok (Some (mkPart 13 1 false))) by reflexivity.
    assert (P14 : next_part m size 14 = Ok (Some (mkPart 13 1 true))) by reflexivity.
    assert (In : 14 <= nlen m) by (unfold m; rewrite nlen_app; fold size; change size with 20; lia).
    assert (R0 : rd16 m 0 = Ok 0) by reflexivity. assert (R2 : rd16 m 2 = Ok 0) by reflexivity. assert (R4 : rd16 m 4 = Ok 1) by reflexivity.
    assert (R16 : rd16 m 16 = Ok 12) by reflexivity. assert (R18 : rd16 m (16 + 2) = Ok 1) by reflexivity.
    assert (Z : size = 20) by reflexivity. clearbody m size. subst size.
    unfold listen. rewrite R0. cbn [bind]. unfold socket_listen. rewrite R0, R2, R4. cbn [bind]. change (N.to_nat 1) with 1%nat. cbn [listen_questions].
    rewrite (knot_services m 20 P12). cbn [bind]. rewrite (knot_skip m 20 P12 P14). cbn [bind]. rewrite R16. cbn [bind]. rewrite R18. cbn [bind].
    change (negb (N.land 1 32767 =? 1)) with false. cbv iota. unfold service_callback. cbn [kEntry kType kOff kLen kClass]. change (negb (0 =? 0)) with false. change (12 =? 12) with true. cbv iota.
    unfold parse_ptr. change ((12 + (16 - 12) <=? 20) && (2 <=? 16 - 12)) with true. cbv iota. rewrite (knot_extract m 20 P12 P14 fuel In). reflexivity.
  - intros fuel t4 t6 from c rest. set (m := _ ++ rest). set (size := nlen _).
    assert (P12 : next_part m size 12 = Ok (Some (mkPart 13 1 false))) by reflexivity.
    assert (P14 : next_part m size 14 = Ok (Some (mkPart 13 1 true))) by reflexivity.
    assert (In : 14 <= nlen m) by (unfold m; rewrite nlen_app; fold size; change size with 26; lia).
    assert (R0 : rd16 m 0 = Ok 0) by reflexivity. assert (R2 : rd16 m 2 = Ok 33792) by reflexivity. assert (R4 : rd16 m 4 = Ok 0) by reflexivity. assert (R6 : rd16 m 6 = Ok 1) by reflexivity.
    assert (R8 : rd16 m 8 = Ok 0) by reflexivity. assert (R10 : rd16 m 10 = Ok 0) by reflexivity.
    assert (R16 : rd16 m 16 = Ok 12) by reflexivity. assert (R18 : rd16 m (16 + 2) = Ok 1) by reflexivity. assert (R20 : rd32 m (16 + 4) = Ok 9) by reflexivity. assert (R24 : rd16 m (16 + 8) = Ok 0) by reflexivity.
    clearbody m size.
    unfold query_recv. rewrite R0, R2, R4, R6, R8, R10. cbn [bind]. change ((0 <? 0) && negb (0 =? 0)) with false. change (1 <? 0) with false. cbv iota.
    change (N.to_nat 0) with 0%nat. change (N.to_nat 1) with 1%nat. cbn [skip_questions bind records_parse].
    rewrite (knot_skip m size P12 P14). cbn [bind]. cbv zeta. rewrite R16. cbn [bind]. rewrite R18. cbn [bind]. rewrite R20. cbn [bind]. rewrite R24. cbn [bind].
    unfold query_callback. cbn [kName]. rewrite (knot_extract m size P12 P14 fuel In). reflexivity.
Qed.
Print Assumptions C81_knot_refuted.
(** A message that fills the buffer of 2048 bytes and ends with a label: the byte behind it is read. *)
Theorem C81_full_buffer_refuted : exists m, nlen m = 2048 /\ name_skip m 2048 12 = UB.
Proof.
  exists (header 0 33792 0 1 0 0 ++ concat (repeat (63 :: repeat 97 63) 31) ++ 51 :: repeat 97 51). split; vm_compute; reflexivity.
Qed.
Print Assumptions C81_full_buffer_refuted.

(** ** C82: the records of a received message *)
(** A message with at most one question and any number of records, all with readable names: the callback
    gets every record with its type, class, time to live and the place of its name and its data, section
    by section and in order, until it asks to stop. *)
Theorem C82_calls_partial : forall St (cb : list N -> N -> call -> St -> res (St * bool)) m size only qid flags nq q an au ad rest s,
  m = header qid flags nq (nlen an) (nlen au) (nlen ad) ++ q ++ flat_map record_bytes an ++ flat_map record_bytes au ++ flat_map record_bytes ad ++ rest ->
  qid < 65536 -> flags < 65536 -> nlen an < 65536 -> nlen au < 65536 -> nlen ad < 65536 -> only = 0 \/ only = qid -> asks m size nq q ->
  Forall record_ok (an ++ au ++ ad) ->
  let p1 := 12 + nlen q in let p2 := p1 + nlen (flat_map record_bytes an) in let p3 := p2 + nlen (flat_map record_bytes au) in
  named m size p1 (an ++ au ++ ad) ->
  query_recv St cb m size only s =
  do a <- run_calls St cb m size (calls_at 1 p1 an) s;
  do b <- run_calls St cb m size (calls_at 2 p2 au) (fst a);
  do c <- run_calls St cb m size (calls_at 3 p3 ad) (fst b);
  Ok (fst c, snd a + snd b + snd c).
Proof.
  intros St cb m size only qid flags nq q an au ad rest s M Q1 Q2 Na Nu Nd On As F p1 p2 p3 H. rewrite !Forall_app in F. destruct F as (Fa&Fu&Fd).
  assert (H1 : named m size p1 an).
  { intros b r a E. destruct (H b r (a ++ au ++ ad)) as [ls X]; [rewrite E, <- app_assoc; reflexivity|]. exists ls. exact X. }
  assert (H2 : named m size p2 au).
  { intros b r a E. destruct (H (an ++ b) r (a ++ ad)) as [ls X]; [rewrite E, <- !app_assoc; reflexivity|]. exists ls. rewrite flat_map_app, nlen_app in X. unfold p2. rewrite <- !N.add_assoc in *. exact X. }
  assert (H3 : named m size p3 ad).
  { intros b r a E. destruct (H (an ++ au ++ b) r a) as [ls X]; [rewrite E, <- !app_assoc; reflexivity|]. exists ls. rewrite !flat_map_app, !nlen_app in X. unfold p3, p2. rewrite <- !N.add_assoc in *. exact X. }
  exact (recv_message St cb m size only qid flags nq q an au ad rest s M Q1 Q2 Na Nu Nd On As Fa Fu Fd H1 H2 H3).
Qed.
Print Assumptions C82_calls_partial.
(** What is done with one record: see [MdnsFound]; here a message with an A record of another program. *)
Example C82_case : let r := mkRecord (wire [T"desk"; T"local"]) 1 32769 120 [10; 0; 0; 7] in
  let m := header 0 33792 0 1 0 0 ++ record_bytes r ++ repeat 170 9 in
  named m 38 12 [r] /\ record_ok r /\
  query_recv collected (query_callback 9 (fun b => b) (fun b => b) (T"10.0.0.7")) m 38 0 nothing =
    Ok (mkCollected [] [] [(T"10.0.0.7", T"desk.local.", [10; 0; 0; 7])] [] [], 1).
Proof.
  cbv zeta. split; [|split; [vm_compute; intuition discriminate|vm_compute; reflexivity]].
  apply (named_cons _ _ _ _ _ [T"desk"; T"local"]); [|apply named_nil].
  apply (spelled_wire false (header 0 33792 0 1 0 0) [T"desk"; T"local"] ([0; 1; 128; 1; 0; 0; 0; 120; 0; 4; 10; 0; 0; 7] ++ repeat 170 9) 38); [|vm_compute; discriminate].
  repeat constructor; try (vm_compute; discriminate); vm_compute; intuition discriminate.
Qed.
(** The length of a TXT record is not compared with the size of the message: 65535 bytes are copied from a
    buffer of 2048. *)
Theorem C82_txt_length_refuted : exists m size, nlen m = 2048 /\ size = 23 /\
  forall t4 t6 from, query_recv collected (query_callback 9 t4 t6 from) m size 0 nothing = UB.
Proof.
  exists (header 0 33792 0 1 0 0 ++ [0; 0; 16; 0; 1; 0; 0; 0; 9; 255; 255] ++ repeat 0 2025), 23. split; [vm_compute; reflexivity|]. split; [reflexivity|]. intros t4 t6 from. vm_compute. reflexivity.
Qed.
Print Assumptions C82_txt_length_refuted.
(** The header is read without a look at the number of bytes received: one byte is enough to have an
    earlier message processed again. *)
Theorem C82_stale_refuted : exists m1 m2 size, size = 1 /\ firstn 1 m1 = firstn 1 m2 /\ nlen m1 = nlen m2 /\
  query_recv collected (query_callback 9 (fun b => b) (fun b => b) []) m1 size 0 nothing <> query_recv collected (query_callback 9 (fun b => b) (fun b => b) []) m2 size 0 nothing.
Proof.
  exists (header 0 33792 0 1 0 0 ++ [0; 0; 16; 0; 1; 0; 0; 0; 9; 0; 2; 65; 66] ++ repeat 0 20), (header 0 33792 0 0 0 0 ++ [0; 0; 16; 0; 1; 0; 0; 0; 9; 0; 2; 65; 66] ++ repeat 0 20), 1.
  split; [reflexivity|]. split; [reflexivity|]. split; [reflexivity|]. vm_compute. discriminate.
Qed.
Print Assumptions C82_stale_refuted.
(** Questions: 65535 of them in a message of 12 bytes read the whole buffer, and beyond it. *)
Theorem C82_questions_refuted : exists m size, nlen m = 2048 /\ size = 12 /\ forall a, listen 9 a m size = UB.
Proof.
  exists (header 0 0 65535 0 0 0 ++ concat (repeat [0; 0; 1; 0; 1] 407) ++ [0]), 12. split; [vm_compute; reflexivity|]. split; [reflexivity|]. intros a. vm_compute. reflexivity.
Qed.
Print Assumptions C82_questions_refuted.
(** executeDiscovery passes no place for the results to query_callback: the first answer crashes it. *)
Theorem C82_discovery_refuted : exists m, discovery_answer 512 service_suffix = Ok (Some m) /\ forall c, discovery_recv collected discovery_callback (m ++ repeat 0 1000) (nlen m) c = UB
  /\ discovery_recv collected (fun _ _ _ c => Ok (c, false)) (m ++ repeat 0 1000) (nlen m) c = Ok (c, 1).
Proof.
  eexists. split; [vm_compute; reflexivity|]. intros c. split; vm_compute; reflexivity.
Qed.
Print Assumptions C82_discovery_refuted.

(** ** C83: what is sent stays in the send buffer *)
Theorem C83_query : forall cap type name qid multi, exists o, query_send cap type name qid multi = Ok o /\ forall b, o = Some b -> nlen b <= cap.
Proof. exact query_send_within. Qed.
Print Assumptions C83_query.
Theorem C83_discovery : forall cap record, exists o, discovery_answer cap record = Ok o /\ forall b, o = Some b -> nlen b <= cap.
Proof. exact discovery_answer_within. Qed.
Print Assumptions C83_discovery.
(** The answer to a question, as long as the host name is not too long for the buffer. *)
Theorem C83_answer_partial : forall cap unicast qid service host ip4 ip6 port txt, nlen ip4 = 4 -> (nlen ip6 = 0 \/ nlen ip6 = 16) ->
  2 * nlen host + nlen service + 60 <= cap ->
  exists o, query_answer cap unicast qid service host ip4 ip6 port txt = Ok o /\ forall b, o = Some b -> nlen b <= cap.
Proof. exact query_answer_within. Qed.
Print Assumptions C83_answer_partial.
(** For the service of MVR-xchange and the buffer of 512 bytes: 214 bytes. *)
Example C83_case : 2 * nlen (repeat 97 214) + nlen service_suffix + 60 <= 512
  /\ exists b, query_answer 512 true 7 service_suffix (repeat 97 60) [10; 0; 0; 7] [] 4567 (repeat 98 255) = Ok (Some b) /\ nlen b = 479.
Proof. split; [vm_compute; discriminate|]. eexists. split; vm_compute; reflexivity. Qed.
(** A group name of 250 letters: the name does not fit, and the failure of mdns_string_make is not noticed. *)
Theorem C83_host_refuted : exists host, nlen host = 250 /\ Forall (fun c => 97 <= c <= 122) host /\
  query_answer 512 false 0 service_suffix host [10; 0; 0; 7] [] 4567 (T"x") = UB.
Proof. exists (repeat 97 250). split; [reflexivity|]. split; [apply Forall_forall; intros x H; apply repeat_spec in H; lia|vm_compute; reflexivity]. Qed.
Print Assumptions C83_host_refuted.
(** One of 442 letters: the SRV record is written without room for it. *)
Theorem C83_srv_refuted : exists host, nlen host = 442 /\ query_answer 512 false 0 service_suffix host [10; 0; 0; 7] [] 4567 (T"x") = UB
  /\ exists b, name_make (512 - 46) host = Ok (Some b).
Proof. exists (repeat 97 442). split; [reflexivity|]. split; [vm_compute; reflexivity|]. eexists. vm_compute. reflexivity. Qed.
Print Assumptions C83_srv_refuted.

(** ** C84: a station that is announced is found *)
Lemma nlen_dotted_wire ls : nlen (wire ls) = nlen (dotted ls) + 1.
Proof.
  induction ls as [|l ls IH]; [reflexivity|]. rewrite nlen_wire_cons, IH, dotted_cons, nlen_app, nlen_cons. lia.
Qed.
Lemma names_length s ls : names s ls -> nlen s <= nlen (dotted ls) /\ nlen (dotted ls) <= nlen s + 1.
Proof.
  intros [F ->|k l F L -> ->]; [lia|]. rewrite dotted_app, !nlen_app. cbn [dotted flat_map]. rewrite app_nil_r, nlen_app. change (nlen [46]) with 1. lia.
Qed.
(** The question for a service, the answer of a station to it, what is collected from the answer and the
    result.  [full]: host and service.  The last condition: the answer fits into the buffer of 512 bytes. *)
Theorem C84_found_partial : forall fuel t4 t6 from svc' host hs ip4 ip6 port txt (multi : bool) rest1 rest2,
  let svc := svc' ++ [T"local"] in let full := hs ++ svc in
  Forall label svc' -> names host hs -> hs <> [] -> nlen ip4 = 4 -> (nlen ip6 = 0 \/ nlen ip6 = 16) -> port < 65536 ->
  ~ same_labels svc [T"_services"; T"_dns-sd"; T"_udp"; T"local"] ->
  nlen (dotted full) <= 256 -> (List.length full < fuel)%nat ->
  (if multi then 0 else 6) + nlen (dotted svc) + 2 * nlen (dotted hs) + (if 0 <? nlen ip6 then 28 else 0) + (if nlen txt <=? 255 then 12 + nlen txt else 0) <= 449 ->
  exists question answer c n,
    query_send 2048 12 (dotted svc) 0 multi = Ok (Some question) /\
    listen fuel (mkAnnounced (dotted svc) host ip4 ip6 port txt) (question ++ rest1) (nlen question) = Ok [(negb multi, answer)] /\
    query_recv collected (query_callback fuel t4 t6 from) (answer ++ rest2) (nlen answer) 0 nothing = Ok (c, n) /\
    results c = [mkQuery (dotted full) (dotted full) (if nlen txt <=? 255 then txt else []) port
                   (if forallb (fun b => b =? 0) ip4 then [] else [t4 ip4]) (if nlen ip6 =? 0 then [] else [t6 ip6])].
Proof.
  intros fuel t4 t6 from svc' host hs ip4 ip6 port txt multi rest1 rest2 sv fl Fs Nh Hne L4 L6 Pp NS Lf Fu Sz.
  set (h := mkStation hs ip4 ip6 port txt).
  assert (Esv : sv = svc svc') by reflexivity. assert (Efl : fl = full svc' h) by reflexivity. clearbody sv fl. subst sv fl.
  set (u := negb multi). set (ans := answer u (svc svc') h 0).
  assert (Flocal : label (T"local")) by (split; [vm_compute; split; discriminate|vm_compute; intuition discriminate]).
  assert (Fsvc : Forall label (svc svc')) by (apply Forall_app; split; [exact Fs|constructor; [exact Flocal|constructor]]).
  assert (Ns : names (dotted (svc svc')) (svc svc')) by (apply names_closed; [exact Fsvc|reflexivity]).
  pose proof (nlen_dotted_wire (svc svc')) as DW. pose proof (nlen_dotted_wire hs) as DH. rewrite nlen_wire in DH. destruct (names_length _ _ Nh) as [NL1 NL2].
  assert (Hh : nlen (hosts h) = nlen (dotted hs)) by (unfold hosts, h; cbn [sHost]; lia).
  assert (LW : 7 <= nlen (wire (svc svc'))).
  { rewrite nlen_wire. unfold svc. rewrite flat_map_app, nlen_app. change (nlen (flat_map label_bytes [T"local"])) with 6. lia. }
  assert (Lsv : nlen (dotted (svc svc')) <= 256) by (unfold full in Lf; rewrite dotted_app, nlen_app in Lf; lia).
  assert (NA : nlen ans <= 510).
  { unfold ans. rewrite nlen_answer by assumption. unfold full_at. rewrite nlen_asked, nlen_ptr_name, Hh, DW. unfold h. cbn [sIP4 sIP6 sTxt sHost]. unfold sent_txt.
    unfold u. destruct multi; cbn [negb]; destruct (some_byte ip4), (0 <? nlen ip6), (0 <? nlen txt), (nlen txt <=? 255) eqn:ET; cbn [andb]; lia. }
  exists (question 0 12 (if multi then 1 else 32769) (svc svc')), ans, (found_in t4 t6 from svc' h nothing), (1 + nlen (extra u (svc svc') h)).
  split; [apply (query_send_ok 2048 12 _ 0 multi _ Ns); lia|]. split; [|split].
  - rewrite listen_question; try assumption; try lia.
    + cbn [aService aHost aIP4 aIP6 aPort aTxt]. rewrite text_short by exact Lsv. rewrite str_eqb_refl.
      replace ((if multi then 1 else 32769) =? 32769) with u by (unfold u; destruct multi; reflexivity).
      pose proof (answer_ok u (svc svc') h 512 0 (dotted (svc svc')) host Ns) as X. change (sHost h) with hs in X. change (sIP4 h) with ip4 in X. change (sIP6 h) with ip6 in X.
      change (sPort h) with port in X. change (sTxt h) with txt in X. rewrite X; try assumption; try lia; [reflexivity| |change (nlen ans + 2 <= 512); lia].
      unfold full_at. rewrite nlen_asked, nlen_ptr_name, Hh, DW. clear -Sz. unfold u. destruct multi; cbn [negb]; lia.
    + unfold full in Fu. rewrite app_length in Fu. lia.
    + destruct multi; lia.
    + unfold svc. destruct svc'; discriminate.
    + intros E. rewrite text_short in E by exact Lsv. apply NS.
      assert (Inj : forall a b, Forall label a -> Forall label b -> dotted a = dotted b -> a = b).
      { clear. induction a as [|x a IH]; intros [|y b] Fa Fb E; rewrite ?dotted_cons in E.
        - reflexivity.
        - destruct y; discriminate E.
        - destruct x; discriminate E.
        - inversion_clear Fa as [|? ? [_ X] Fa']. inversion_clear Fb as [|? ? [_ Y] Fb'].
          pose proof (find_dot x (dotted a) X) as D1. rewrite E in D1. rewrite (find_dot y (dotted b) Y) in D1. injection D1 as D1.
          assert (Q : y = x /\ 46 :: dotted b = 46 :: dotted a).
          { clear -E D1. revert y D1 E. induction x as [|c x IHx]; intros [|d y] D1 E; cbn [List.length app] in *; try discriminate D1; [split; [reflexivity|congruence]|].
            injection E as -> E. injection D1 as D1. destruct (IHx y D1 E) as [-> Q]. split; [reflexivity|exact Q]. }
          destruct Q as [-> Q]. injection Q as Q. f_equal. apply IH; [assumption|assumption|congruence]. }
      assert (Fl : Forall label [T"_services"; T"_dns-sd"; T"_udp"; T"local"]) by (repeat constructor; try (vm_compute; discriminate); vm_compute; intuition discriminate).
      rewrite (Inj _ _ Fsvc Fl E). repeat constructor.
  - unfold ans. apply (recv_answer fuel t4 t6 from u svc' h 0 rest2 0 nothing); try assumption; try lia.
    + exact (names_labels _ _ Nh).
    + fold ans. lia.
  - rewrite results_station by exact Lf. unfold h. cbn [sTxt sPort sIP4 sIP6]. f_equal. unfold sent_txt, some_byte. f_equal.
    + destruct (nlen txt <=? 255) eqn:E1; destruct (N.ltb_spec 0 (nlen txt)) as [E2|E2]; cbn [andb]; try reflexivity. destruct txt; [reflexivity|]. rewrite nlen_cons in E2. lia.
    + clear. assert (E : existsb (fun b => negb (b =? 0)) ip4 = negb (forallb (fun b => b =? 0) ip4)).
      { induction ip4 as [|x l IH]; [reflexivity|]. cbn [existsb forallb]. rewrite IH. destruct (x =? 0); reflexivity. }
      rewrite E. destruct (forallb _ ip4); reflexivity.
    + destruct L6 as [E|E]; rewrite E; reflexivity.
Qed.
Print Assumptions C84_found_partial.
Lemma label_of_allowed l : (forall c, In c l -> allowed c) -> 1 <= nlen l <= 63 -> label l.
Proof. intros H L. split; [exact L|]. intros I. apply H in I. revert I. vm_compute. intuition discriminate. Qed.
Lemma client_one own group name w port a4 l6 : (forall c, In c group -> allowed c) -> 1 <= nlen group <= 63 ->
  wf8 name -> ~ In 0 name -> ~ occurs (T"StationName=") name -> words_ok w -> nlen name <= 193 -> ~ In (a4 ++ T":" ++ dec port) own ->
  let full := group ++ 46 :: service_suffix in
  client_task 2 true own [mkQuery full full (announce name w) port [a4] l6] = Ok [mkFound full w name [fixed_text a4] (map fixed_text l6) port].
Proof.
  intros Gc Gl Wn Zn On Ww Ln Ow full.
    unfold client_task. cbn [filter_queries existsb]. cbn [qIP4]. change (nlen [a4] =? 0) with false. cbv iota.
    assert (Eo : forall x y z p i6, is_own own (mkQuery x y z p [a4] i6) = existsb (str_eqb (a4 ++ T":" ++ dec p)) own).
    { intros. unfold is_own. cbn [qIP4 existsb qPort]. apply orb_false_r. }
    rewrite Eo. replace (existsb (str_eqb (a4 ++ T":" ++ dec port)) own) with false.
    2:{ symmetry. apply not_true_is_false. intros E. apply existsb_exists in E as (x&X1&X2). apply str_eqb_iff in X2. subst x. contradiction. }
    assert (Es : forall y z p i4 i6, is_service (mkQuery full y z p i4 i6) = true).
    { intros. unfold is_service. cbn [qService]. unfold full. change (46 :: service_suffix) with ([46] ++ service_suffix). rewrite !rev_app_distr, <- app_assoc, starts_app.
      rewrite (proj2 (N.ltb_ge _ _)) by (rewrite !nlen_app; clear; lia). reflexivity. }
    rewrite Es. cbn [negb app all_found]. unfold to_found. cbn [qTxt qHost qIP4 qIP6 qPort].
    rewrite (C12_round_trip_partial name w 2 Wn Zn) by (try assumption; clear -Ln; lia). cbn [bind fst snd map].
    assert (Ff : fixed_text full = full).
    { unfold fixed_text. rewrite upto_nul_id.
      - apply firstn_all2. unfold full. rewrite app_length. cbn [List.length]. unfold nlen in Gl. change (List.length service_suffix) with 23%nat. clear -Gl. lia.
      - unfold full. rewrite in_app_iff. intros [I|I]; [apply Gc in I|]; clear -I; revert I; vm_compute; intuition discriminate. }
    rewrite Ff. reflexivity.
Qed.
(** The whole way of a station: what ConnectToLocalService announces is what another program lists. *)
Theorem C84_station_partial : forall t4 t6 from group name w ip4 ip6 port own rest1 rest2,
  (forall c, In c group -> allowed c) -> 1 <= nlen group <= 63 ->
  wf8 name -> ~ In 0 name -> ~ occurs (T"StationName=") name -> words_ok w ->
  nlen ip4 = 4 -> (exists b, In b ip4 /\ b <> 0) -> (nlen ip6 = 0 \/ nlen ip6 = 16) -> port < 65536 ->
  nlen name <= 193 -> ~ In (t4 ip4 ++ T":" ++ dec port) own ->
  exists question answer c n,
    query_send 2048 12 service_suffix 0 true = Ok (Some question) /\
    listen 9 (mkAnnounced service_suffix group ip4 ip6 port (announce name w)) (question ++ rest1) (nlen question) = Ok [(false, answer)] /\
    query_recv collected (query_callback 9 t4 t6 from) (answer ++ rest2) (nlen answer) 0 nothing = Ok (c, n) /\
    client_task 2 true own (results c) =
      Ok [mkFound (group ++ T"." ++ service_suffix) w name [fixed_text (t4 ip4)] (if nlen ip6 =? 0 then [] else [fixed_text (t6 ip6)]) port].
Proof.
  intros t4 t6 from group name w ip4 ip6 port own rest1 rest2 Gc Gl Wn Zn On Ww L4 Nz L6 Pp Ln Ow.
  destruct (station_text_facts w Ww) as (_&_&Sl&_).
  assert (La : nlen (announce name w) = 62 + nlen name).
  { unfold announce, txt_entry. rewrite nlen_app, !nlen_cons, !nlen_app. change (nlen (T"StationName=")) with 12. change (nlen (T"StationUUID=")) with 12.
    replace (nlen (station_text w)) with 36 by (unfold nlen; rewrite Sl; reflexivity). lia. }
  pose proof (label_of_allowed group Gc Gl) as Lg.
  assert (Lb : label (T"_mvrxchange") /\ label (T"_tcp")) by (split; (split; [vm_compute; split; discriminate|vm_compute; intuition discriminate])).
  assert (Ng : names group [group]) by (apply (names_open _ _ [] group); [constructor|exact Lg|reflexivity|reflexivity]).
  destruct (C84_found_partial 9 t4 t6 from [T"_mvrxchange"; T"_tcp"] group [group] ip4 ip6 port (announce name w) true rest1 rest2) as (q&a&c&n&Q1&Q2&Q3&Q4); try assumption.
  - constructor; [tauto|]. constructor; [tauto|constructor].
  - discriminate.
  - intros H. inversion H as [|? ? ? ? X]. discriminate X.
  - cbn [app]. rewrite dotted_cons, nlen_app, nlen_cons. change (nlen (dotted _)) with 23. lia.
  - cbn [app List.length]; clear; lia.
  - cbn [app]. change (nlen (dotted [T"_mvrxchange"; T"_tcp"; T"local"])) with 23. rewrite dotted_cons, nlen_app, nlen_cons. change (nlen (dotted [])) with 0. rewrite La.
    rewrite (proj2 (N.leb_le _ _)) by (clear -Ln; lia). clear -Ln Gl. destruct (0 <? nlen ip6); lia.
  - assert (Ed : dotted ([T"_mvrxchange"; T"_tcp"] ++ [T"local"]) = service_suffix) by reflexivity. rewrite Ed in Q1, Q2. change (negb true) with false in Q2.
    exists q, a, c, n. split; [exact Q1|]. split; [exact Q2|]. split; [exact Q3|]. rewrite Q4. clear Q1 Q2 Q3 Q4.
    rewrite La. rewrite (proj2 (N.leb_le _ _)) by (clear -Ln; lia).
    assert (E4 : forallb (fun b => b =? 0) ip4 = false).
    { destruct Nz as (b&I&B). apply not_true_is_false. intros F. rewrite forallb_forall in F. specialize (F b I). clear -F B. lia. }
    rewrite E4. cbn [app]. rewrite dotted_cons. cbn [app] in Ed. rewrite Ed.
    rewrite (client_one own group name w port (t4 ip4)) by assumption.
    destruct L6 as [E|E]; rewrite E; reflexivity.
Qed.
Print Assumptions C84_station_partial.
Example C84_case : exists question answer c n,
  query_send 2048 12 service_suffix 0 true = Ok (Some question) /\
  listen 9 (mkAnnounced service_suffix (T"Stage-1") [10; 0; 0; 7] [] 4567 (announce (T"Desk = 1") (1, 2, 3, 4))) (question ++ repeat 7 100) (nlen question) = Ok [(false, answer)] /\
  query_recv collected (query_callback 9 (fun b => map (N.add 48) b) (fun b => b) (T"10.0.0.7")) (answer ++ repeat 7 100) (nlen answer) 0 nothing = Ok (c, n) /\
  client_task 2 true [] (results c) = Ok [mkFound (T"Stage-1._mvrxchange._tcp.local.") (1, 2, 3, 4) (T"Desk = 1") [T":007"] [] 4567].
Proof. do 4 eexists. split; [vm_compute; reflexivity|]. split; [vm_compute; reflexivity|]. split; [vm_compute; reflexivity|vm_compute; reflexivity]. Qed.
(** A group name without any ASCII letter or digit becomes the empty host name: the names of the records
    are references to references, which the receiver does not follow and does not skip.  It takes
    the middle of the message for the next record and reads behind its buffer of 2048 bytes. *)
Theorem C84_empty_group_refuted : exists group, group <> [] /\ filter_service_name group = [] /\ exists question answer,
  query_send 2048 12 service_suffix 0 true = Ok (Some question) /\
  listen 9 (mkAnnounced service_suffix (filter_service_name group) [10; 0; 0; 7] [] 4567 (announce (T"Desk") (1, 2, 3, 4))) (question ++ repeat 7 100) (nlen question) = Ok [(false, answer)] /\
  query_recv collected (query_callback 9 (fun b => b) (fun b => b) (T"10.0.0.7")) (firstn 2048 (answer ++ repeat 0 2048)) (nlen answer) 0 nothing = UB.
Proof.
  exists [195; 132]. split; [discriminate|]. split; [vm_compute; reflexivity|]. do 2 eexists. split; [vm_compute; reflexivity|]. split; [vm_compute; reflexivity|]. vm_compute; reflexivity.
Qed.
Print Assumptions C84_empty_group_refuted.
(** A station name of 194 bytes: the TXT record is left out, and every program that finds the station fails
    with an exception while it reads the empty text. *)
Theorem C84_long_name_refuted : exists name, nlen name = 194 /\ Forall (fun c => 97 <= c <= 122) name /\ exists question answer c n,
  query_send 2048 12 service_suffix 0 true = Ok (Some question) /\
  listen 9 (mkAnnounced service_suffix (T"Stage") [10; 0; 0; 7] [] 4567 (announce name (1, 2, 3, 4))) (question ++ repeat 7 100) (nlen question) = Ok [(false, answer)] /\
  query_recv collected (query_callback 9 (fun b => b) (fun b => b) (T"10.0.0.7")) (answer ++ repeat 7 100) (nlen answer) 0 nothing = Ok (c, n) /\
  client_task 2 true [] (results c) = Exc.
Proof.
  exists (repeat 97 194). split; [reflexivity|]. split; [apply Forall_forall; intros x H; apply repeat_spec in H; lia|].
  do 4 eexists. split; [vm_compute; reflexivity|]. split; [vm_compute; reflexivity|]. split; [vm_compute; reflexivity|vm_compute; reflexivity].
Qed.
Print Assumptions C84_long_name_refuted.
(** The longest names and an IPv6 address: a question from another port than 5353, which asks for an answer
    to that port, is not answered. *)
Theorem C84_no_answer_refuted : exists group name ip6, nlen group = 63 /\ nlen name = 193 /\ nlen ip6 = 16 /\ exists question,
  query_send 2048 12 service_suffix 0 false = Ok (Some question) /\
  listen 9 (mkAnnounced service_suffix group [10; 0; 0; 7] ip6 4567 (announce name (1, 2, 3, 4))) (question ++ repeat 7 100) (nlen question) = Ok [].
Proof.
  exists (repeat 97 63), (repeat 98 193), (repeat 32 16). split; [reflexivity|]. split; [reflexivity|]. split; [reflexivity|]. eexists. split; [vm_compute; reflexivity|]. vm_compute. reflexivity.
Qed.
Print Assumptions C84_no_answer_refuted.

(** ** C85: the answers of several stations *)
(** Records of different senders are not mixed. *)
Theorem C85_senders_partial : forall c d, (forall a, In a (all_senders c) -> ~ In a (all_senders d)) -> results (join c d) = results c ++ results d.
Proof. exact results_join. Qed.
Print Assumptions C85_senders_partial.
(** What arrives twice, over two interfaces or because of two questions, is listed once. *)
Theorem C85_twice : forall c, results (join c c) = results c.
Proof. exact results_twice. Qed.
Print Assumptions C85_twice.
(** The addresses of a station are a set: ordered, without repetition, and independent of the order in which
    they arrived. *)
Theorem C85_address_set : forall l k, (forall x, In x l <-> In x k) ->
  fold_left set_insert l [] = fold_left set_insert k [] /\ NoDup (fold_left set_insert l []) /\ forall x, In x (fold_left set_insert l []) <-> In x l.
Proof.
  intros l k H. split; [exact (set_ext l k H)|]. split; [|intros x; rewrite set_in; cbn [In]; tauto].
  assert (S : sorted (fold_left set_insert l [])) by (apply set_sorted; constructor). clear H. induction S as [|x m F S IH]; constructor; [|exact IH].
  intros I. rewrite Forall_forall in F. specialize (F x I). cbn in F. rewrite lex_irrefl in F. discriminate F.
Qed.
Print Assumptions C85_address_set.
Definition station_of (from group : list N) (port : N) (txt : list N) : collected :=
  found_in (fun b => b) (fun b => b) from [T"_mvrxchange"; T"_tcp"] (mkStation [group] [10; 0; 0; 7] [] port txt) nothing.
Example C85_case : let c := station_of (T"10.0.0.7") (T"Stage") 4567 (T"one") in let d := station_of (T"10.0.0.8") (T"Stage") 4567 (T"two") in
  (forall a, In a (all_senders c) -> ~ In a (all_senders d)) /\ map qTxt (results (join c d)) = [T"one"; T"two"].
Proof.
  cbv zeta. split; [|vm_compute; reflexivity]. intros a H K. vm_compute in H, K. intuition congruence.
Qed.
(** Two programs on one computer in the same group: both get the name and the identifier of the first. *)
Theorem C85_same_computer_refuted : exists from group port1 port2 txt1 txt2, port1 <> port2 /\ txt1 <> txt2 /\
  map (fun q => (qPort q, qTxt q)) (results (join (station_of from group port1 txt1) (station_of from group port2 txt2))) = [(port1, txt1); (port2, txt1)].
Proof. exists (T"10.0.0.7"), (T"Stage"), 4567, 4568, (T"one"), (T"two"). split; [discriminate|]. split; [discriminate|]. vm_compute. reflexivity. Qed.
Print Assumptions C85_same_computer_refuted.
(** The same when one group name begins with the other. *)
Theorem C85_prefix_refuted : exists from g1 g2 port1 port2 txt1 txt2, g1 <> g2 /\ txt1 <> txt2 /\
  map (fun q => (qPort q, qTxt q)) (results (join (station_of from g1 port1 txt1) (station_of from g2 port2 txt2))) = [(port1, txt1); (port2, txt1)].
Proof. exists (T"10.0.0.7"), (T"Stage"), (T"Stage2"), 4567, 4568, (T"one"), (T"two"). split; [discriminate|]. split; [discriminate|]. vm_compute. reflexivity. Qed.
Print Assumptions C85_prefix_refuted.

(** ** C86: the interfaces on which a station is announced *)
Theorem C86_interfaces : forall a b c d, a < 256 -> b < 256 -> c < 256 -> d < 256 ->
  announced_on [a; b; c; d] = negb ((a =? 127) && (b =? 0) && (c =? 0) && (d =? 1)) && negb (d =? 127).
Proof.
  intros a b c d A B C D. unfold announced_on, s_addr. cbn [le_val].
  set (x := a + 256 * (b + 256 * (c + 256 * (d + 256 * 0)))). change (127 + 256 * (0 + 256 * (0 + 256 * (1 + 256 * 0)))) with 16777343.
  assert (E1 : (x =? 16777343) = (a =? 127) && (b =? 0) && (c =? 0) && (d =? 1)) by (unfold x; lia).
  assert (E2 : (N.land x 4278190080 =? 2130706432) = (d =? 127)).
  { assert (Y : N.land x 4278190080 = d * 2 ^ 24).
    { change 4278190080 with (N.shiftl (N.ones 8) 24). replace x with (N.lor (a + 256 * (b + 256 * c)) (N.shiftl d 24)).
      2:{ unfold x. rewrite N.shiftl_mul_pow2. change (2 ^ 24) with 16777216.
          assert (Lt : a + 256 * (b + 256 * c) < 2 ^ 24) by (change (2 ^ 24) with 16777216; lia). set (y := a + 256 * (b + 256 * c)) in *.
          assert (Z : N.land y (d * 2 ^ 24) = 0).
          { apply N.bits_inj. intros k. rewrite N.land_spec, N.bits_0. destruct (N.ltb_spec k 24) as [K|K].
            - rewrite N.mul_pow2_bits_low by exact K. apply andb_false_r.
            - rewrite <- (N.mod_small y (2 ^ 24) Lt). rewrite N.mod_pow2_bits_high by exact K. reflexivity. }
          change 16777216 with (2 ^ 24). rewrite <- N.lxor_lor by exact Z. rewrite <- N.add_nocarry_lxor by exact Z. unfold y. change (2 ^ 24) with 16777216. lia. }
      rewrite N.land_lor_distr_l. rewrite <- N.shiftl_land. rewrite N.land_ones. change (2 ^ 8) with 256. rewrite (N.mod_small d 256 D).
      assert (Lt : a + 256 * (b + 256 * c) < 2 ^ 24) by (change (2 ^ 24) with 16777216; lia). set (y := a + 256 * (b + 256 * c)) in *.
      replace (N.land y (N.shiftl (N.ones 8) 24)) with 0; [rewrite N.lor_0_l; apply N.shiftl_mul_pow2|].
      symmetry. apply N.bits_inj. intros k. rewrite N.land_spec, N.bits_0. destruct (N.ltb_spec k 24) as [K|K].
      - rewrite N.shiftl_spec_low by exact K. apply andb_false_r.
      - rewrite <- (N.mod_small y (2 ^ 24) Lt). rewrite N.mod_pow2_bits_high by exact K. reflexivity. }
    rewrite Y. change (2 ^ 24) with 16777216. lia. }
  rewrite E1, E2. reflexivity.
Qed.
Print Assumptions C86_interfaces.
(** Meant is: on every interface but those of the local net 127.x.x.x. *)
Theorem C86_loopback_refuted : exists ip, hd 0 ip = 127 /\ announced_on ip = true.
Proof. exists [127; 0; 0; 2]. split; reflexivity. Qed.
Print Assumptions C86_loopback_refuted.
Theorem C86_skipped_refuted : exists ip, ip = [192; 168; 0; 127] /\ announced_on ip = false.
Proof. exists [192; 168; 0; 127]. split; reflexivity. Qed.
Print Assumptions C86_skipped_refuted.
