(** Lemmas about MdnsModel: the messages that are sent. *)
From Coq Require Import String List NArith ZArith Lia Bool Arith.
From Coq Require Import ZifyN ZifyNat ZifyBool.
From Verif Require Import Bytes BytesProofs Txt NumModel JsonModel ServiceModel ServiceProofs XmlRef MdnsModel MdnsSpec MdnsProofs MdnsWrite MdnsMessages.
Import ListNotations.
Open Scope N_scope.
Ltac Zify.zify_post_hook ::= idtac.

Lemma put_ok cap out b : nlen out + nlen b <= cap -> put cap out b = Ok (Some (out ++ b)).
Proof. intros H. unfold put. rewrite (proj2 (N.leb_le _ _)) by exact H. reflexivity. Qed.
Lemma need_ok cap n out : n < cap - nlen out -> need cap n out = Ok (Some tt).
Proof. intros H. unfold need. rewrite (proj2 (N.leb_gt _ _)) by exact H. reflexivity. Qed.
Lemma put_name_ok cap out s ls : names s ls -> nlen out + nlen (wire ls) <= cap -> put_name cap out s = Ok (Some (out ++ wire ls)).
Proof.
  intros H L. unfold put_name. rewrite (make_names s ls _ H). unfold fits. rewrite (proj2 (N.leb_le _ _)) by lia. cbn [bind app]. apply put_ok. exact L.
Qed.
Lemma put_ref_ok cap out t : nlen out + 2 <= cap -> t < 16384 -> put_ref cap out t = Ok (Some (out ++ ref_bytes t)).
Proof. intros H L. unfold put_ref. rewrite make_ref_ok by (exact L || lia). apply put_ok. rewrite nlen_ref. exact H. Qed.
Lemma nlen_wire ls : nlen (wire ls) = nlen (flat_map label_bytes ls) + 1.
Proof. unfold wire. rewrite nlen_app. reflexivity. Qed.
Lemma put_with_ref_ok cap out s ls t : names s ls -> nlen out + nlen (flat_map label_bytes ls) + 2 <= cap -> t < 16384 ->
  put_with_ref cap out s t = Ok (Some (out ++ flat_map label_bytes ls ++ ref_bytes t)).
Proof.
  intros H L T1. unfold put_with_ref. rewrite (make_with_ref_ok s ls) by (try assumption; rewrite nlen_wire; lia). cbn [bind]. apply put_ok. rewrite nlen_app, nlen_ref. lia.
Qed.
Lemma nlen_rr_head t c ttl len : nlen (rr_head t c ttl len) = 10.
Proof. reflexivity. Qed.
Lemma patch_head a t c ttl v b : v < 65536 -> patch16 (nlen a + 8) v (a ++ rr_head t c ttl 0 ++ b) = a ++ rr_head t c ttl v ++ b.
Proof.
  intros H. unfold patch16. rewrite N.mod_small by exact H. unfold rr_head.
  set (x := be_bytes 2 t ++ be_bytes 2 c ++ be_bytes 4 ttl).
  replace (a ++ (be_bytes 2 t ++ be_bytes 2 c ++ be_bytes 4 ttl ++ be_bytes 2 0) ++ b) with ((a ++ x) ++ be_bytes 2 0 ++ b) by (unfold x; rewrite <- !app_assoc; reflexivity).
  replace (a ++ (be_bytes 2 t ++ be_bytes 2 c ++ be_bytes 4 ttl ++ be_bytes 2 v) ++ b) with ((a ++ x) ++ be_bytes 2 v ++ b) by (unfold x; rewrite <- !app_assoc; reflexivity).
  assert (L : (N.to_nat (nlen a + 8) = List.length (a ++ x))%nat) by (rewrite app_length; unfold nlen, x; cbn; lia).
  rewrite L. rewrite firstn_app, firstn_all, Nat.sub_diag. cbn [firstn]. rewrite app_nil_r. f_equal. f_equal.
  rewrite skipn_app, skipn_all2 by lia. cbn [app]. replace (List.length (a ++ x) + 2 - List.length (a ++ x))%nat with 2%nat by lia. reflexivity.
Qed.

(** ** The answer of mdns_query_answer, as records *)
Record station := mkStation { sHost : list (list N); sIP4 : list N; sIP6 : list N; sPort : N; sTxt : list N }.
Definition some_byte (l : list N) : bool := existsb (fun b => negb (b =? 0)) l.
Definition sent_txt (t : list N) : bool := (0 <? nlen t) && (nlen t <=? 255).
Section Answer.
Variable unicast : bool.
Variable svc : list (list N).
Variable h : station.
Definition cls : N := if unicast then 32769 else 1.
Definition ttl : N := if unicast then 10 else 60.
Definition hosts : list N := flat_map label_bytes (sHost h).
Definition asked : list N := if unicast then question_bytes (wire svc) 12 32769 else [].
Definition ptr_name : list N := if unicast then ref_bytes 12 else wire svc.
(** Where the full name, the host name and "local." stand. *)
Definition full_at : N := 12 + nlen asked + nlen ptr_name + 10.
Definition local_at : N := 12 + nlen (wire svc) - 7.
Definition host_at : N := full_at + nlen hosts + 2 + 2 + 10 + 6.
Definition ptr_record : record := mkRecord ptr_name 12 cls ttl (hosts ++ ref_bytes 12).
Definition srv_record : record := mkRecord (ref_bytes full_at) 33 cls ttl (be_bytes 2 0 ++ be_bytes 2 0 ++ be_bytes 2 (sPort h) ++ hosts ++ ref_bytes local_at).
Definition a_record : record := mkRecord (ref_bytes host_at) 1 cls ttl (sIP4 h).
Definition aaaa_record : record := mkRecord (ref_bytes host_at) 28 cls ttl (sIP6 h).
Definition txt_record : record := mkRecord (ref_bytes full_at) 16 cls ttl (sTxt h).
Definition only_if (b : bool) (r : record) : list record := if b then [r] else [].
Definition extra : list record :=
  srv_record :: only_if (some_byte (sIP4 h)) a_record ++ only_if (0 <? nlen (sIP6 h)) aaaa_record ++ only_if (sent_txt (sTxt h)) txt_record.
Definition answer (qid : N) : list N :=
  header (if unicast then qid else 0) 33792 (if unicast then 1 else 0) 1 0 (nlen extra) ++ asked ++ flat_map record_bytes [ptr_record] ++ flat_map record_bytes extra.
Lemma nlen_asked : nlen asked = if unicast then nlen (wire svc) + 4 else 0.
Proof. unfold asked, question_bytes. destruct unicast; [|reflexivity]. rewrite !nlen_app, !nlen_be_bytes. lia. Qed.
Lemma nlen_ptr_name : nlen ptr_name = if unicast then 2 else nlen (wire svc).
Proof. unfold ptr_name. destruct unicast; reflexivity. Qed.
Lemma nlen_answer qid : nlen (sIP4 h) = 4 -> (nlen (sIP6 h) = 0 \/ nlen (sIP6 h) = 16) ->
  nlen (answer qid) = full_at + nlen hosts + 2 + 18 + nlen hosts + 2 + (if some_byte (sIP4 h) then 16 else 0) + (if 0 <? nlen (sIP6 h) then 28 else 0) + (if sent_txt (sTxt h) then 12 + nlen (sTxt h) else 0).
Proof.
  intros H4 H6. unfold answer, extra, full_at. cbn [flat_map]. rewrite !nlen_app, nlen_header, !flat_map_app, !nlen_app. change (nlen (flat_map record_bytes [])) with 0. change (nlen (@nil N)) with 0.
  assert (O1 : forall b r, nlen (flat_map record_bytes (only_if b r)) = if b then nlen (record_bytes r) else 0).
  { intros [|] r; cbn [only_if flat_map]; [rewrite app_nil_r; reflexivity|reflexivity]. }
  rewrite !O1, !nlen_record. unfold ptr_record, srv_record, a_record, aaaa_record, txt_record. cbn [rName rData]. rewrite !nlen_app, !nlen_ref, !nlen_be_bytes, H4.
  destruct (some_byte (sIP4 h)), (0 <? nlen (sIP6 h)) eqn:E6, (sent_txt (sTxt h)); lia.
Qed.
Lemma answer_ok cap qid service host : names service svc -> names host (sHost h) -> nlen service <= nlen (wire svc) -> nlen host <= nlen hosts + 1 -> 6 <= nlen (wire svc) ->
  nlen (sIP4 h) = 4 -> (nlen (sIP6 h) = 0 \/ nlen (sIP6 h) = 16) -> sPort h < 65536 ->
  full_at + 2 * nlen hosts + 33 <= cap -> nlen (answer qid) + 2 <= cap -> cap < 16384 ->
  query_answer cap unicast qid service host (sIP4 h) (sIP6 h) (sPort h) (sTxt h) = Ok (Some (answer qid)).
Proof.
  intros Ns Nh Ls Lh Lw L4 L6 Pp Lb Le Cap. pose proof (nlen_answer qid L4 L6) as NA. rewrite NA in Le.
  assert (FA : full_at = if unicast then 12 + nlen (wire svc) + 4 + 2 + 10 else 12 + nlen (wire svc) + 10).
  { unfold full_at. rewrite nlen_asked, nlen_ptr_name. destruct unicast; lia. }
  assert (Wf : full_at <= cap) by lia.
  unfold query_answer. rewrite (proj2 (N.ltb_ge _ _)) by (destruct unicast; lia). cbv zeta.
  fold (some_byte (sIP4 h)). fold (sent_txt (sTxt h)). fold cls. fold ttl.
  set (hd := be_bytes 2 (if unicast then qid else 0) ++ _).
  assert (Hd : nlen hd = 12) by (unfold hd; rewrite !nlen_app, !nlen_be_bytes; reflexivity).
  rewrite (put_ok cap [] hd) by (rewrite Hd; change (nlen (@nil N)) with 0; destruct unicast; lia). cbn [bind app].
  (* the question and the name of the PTR record *)
  set (o1 := hd ++ asked ++ ptr_name).
  assert (L1 : nlen o1 + 10 = full_at) by (unfold o1, full_at; rewrite !nlen_app, Hd; lia).
  assert (A1 : (do o <- (if unicast then
       do o <- put_name cap hd service; match o with None => Ok None | Some out =>
       do o0 <- need cap 4 out; match o0 with None => Ok None | Some _ =>
       do o1 <- put cap out (be_bytes 2 12 ++ be_bytes 2 32769); match o1 with None => Ok None | Some out0 =>
       do o2 <- put_ref cap out0 12; match o2 with None => Ok None | Some out1 => Ok (Some (out1, nlen out - 7)) end end end end
     else do o <- put_name cap hd service; match o with None => Ok None | Some out => Ok (Some (out, nlen out - 7)) end); Ok o) = Ok (Some (o1, local_at))).
  { unfold o1, asked, ptr_name, question_bytes, local_at. destruct unicast.
    - rewrite (put_name_ok cap hd service svc Ns) by lia. cbn [bind]. rewrite need_ok by (rewrite nlen_app, Hd; lia). cbn [bind].
      rewrite put_ok by (rewrite !nlen_app, !nlen_be_bytes, Hd; lia). cbn [bind]. rewrite put_ref_ok by (try lia; rewrite !nlen_app, !nlen_be_bytes, Hd; lia). cbn [bind].
      rewrite (nlen_app hd), Hd, <- !app_assoc. reflexivity.
    - rewrite (put_name_ok cap hd service svc Ns) by lia. cbn [bind]. rewrite nlen_app, Hd. reflexivity. }
  match type of A1 with bind ?e _ = _ => assert (A2 : e = Ok (Some (o1, local_at))) by (destruct e as [x| | |]; cbn [bind] in A1; congruence) end.
  rewrite A2. clear A1 A2. cbn [bind].
  (* PTR *)
  rewrite need_ok by lia. cbn [bind]. rewrite put_ok by (rewrite nlen_rr_head; lia). cbn [bind].
  assert (L2 : nlen (o1 ++ rr_head 12 cls ttl 0) = full_at) by (rewrite nlen_app, nlen_rr_head; exact L1). rewrite L2.
  rewrite (put_with_ref_ok cap _ host (sHost h) 12 Nh) by (rewrite ?L2; fold hosts; lia). fold hosts. cbn [bind].
  rewrite need_ok by (rewrite !nlen_app, nlen_ref, <- nlen_app, L2; lia). cbn [bind].
  set (o2 := patch16 _ _ _).
  assert (O2 : o2 = o1 ++ rr_head 12 cls ttl (nlen hosts + 2) ++ hosts ++ ref_bytes 12).
  { unfold o2. replace (full_at - 2) with (nlen o1 + 8) by lia. rewrite <- app_assoc. rewrite patch_head; [f_equal; f_equal; f_equal|].
    - rewrite (nlen_app o1), (nlen_app (rr_head _ _ _ _)), nlen_rr_head, nlen_app, nlen_ref. lia.
    - rewrite (nlen_app o1), (nlen_app (rr_head _ _ _ _)), nlen_rr_head, nlen_app, nlen_ref. lia. }
  clearbody o2. assert (L3 : nlen o2 = full_at + nlen hosts + 2) by (rewrite O2, !nlen_app, nlen_rr_head, nlen_ref; lia).
  (* SRV *)
  rewrite put_ref_ok by lia. cbn [bind]. rewrite need_ok by (rewrite nlen_app, nlen_ref; lia). cbn [bind].
  set (sh := be_bytes 2 0 ++ be_bytes 2 0 ++ be_bytes 2 (sPort h)).
  assert (Lsh : nlen sh = 6) by reflexivity.
  rewrite put_ok by (rewrite (nlen_app (rr_head _ _ _ _)), Lsh, !nlen_app, nlen_ref, nlen_rr_head; lia). cbn [bind].
  set (o3 := (o2 ++ ref_bytes full_at) ++ rr_head 33 cls ttl 0 ++ sh).
  assert (L4' : nlen o3 = host_at) by (unfold o3, host_at; rewrite !nlen_app, nlen_ref, nlen_rr_head, Lsh; lia). rewrite L4'.
  assert (HA : host_at = full_at + nlen hosts + 20) by (unfold host_at; lia).
  rewrite (put_with_ref_ok cap _ host (sHost h) local_at Nh) by (rewrite ?L4'; fold hosts; unfold local_at; destruct unicast; lia). fold hosts. cbn [bind].
  rewrite need_ok by (rewrite !nlen_app, nlen_ref, L4'; lia). cbn [bind].
  set (o4 := patch16 _ _ _).
  assert (O4 : o4 = (o2 ++ ref_bytes full_at) ++ rr_head 33 cls ttl (nlen hosts + 8) ++ sh ++ hosts ++ ref_bytes local_at).
  { unfold o4, o3. rewrite <- (app_assoc _ (rr_head _ _ _ _ ++ sh)). rewrite <- (app_assoc (rr_head _ _ _ _)). rewrite patch_head; [f_equal; f_equal; f_equal|].
    - rewrite (nlen_app (o2 ++ _)), (nlen_app (rr_head _ _ _ _)), nlen_rr_head, !nlen_app, !nlen_ref, Lsh. lia.
    - rewrite (nlen_app (o2 ++ _)), (nlen_app (rr_head _ _ _ _)), nlen_rr_head, !nlen_app, !nlen_ref, Lsh. lia. }
  clearbody o4. assert (L5 : nlen o4 = host_at + nlen hosts + 2) by (rewrite O4, !nlen_app, nlen_rr_head, !nlen_ref, Lsh; lia).
  (* A, AAAA, TXT *)
  set (o5 := o4 ++ flat_map record_bytes (only_if (some_byte (sIP4 h)) a_record)).
  assert (L6' : nlen o5 = nlen o4 + if some_byte (sIP4 h) then 16 else 0).
  { unfold o5. rewrite nlen_app. destruct (some_byte (sIP4 h)); cbn [only_if flat_map]; [|reflexivity]. rewrite app_nil_r, nlen_record. unfold a_record. cbn [rName rData]. rewrite nlen_ref, L4. lia. }
  match goal with |- bind ?e _ = _ => assert (A5 : e = Ok (Some o5)) end.
  { unfold o5. destruct (some_byte (sIP4 h)); cbn [only_if flat_map]; [|rewrite app_nil_r; reflexivity].
    rewrite put_ref_ok by lia. cbn [bind]. rewrite need_ok by (rewrite nlen_app, nlen_ref; lia). cbn [bind].
    rewrite put_ok by (rewrite !nlen_app, nlen_ref, nlen_rr_head; lia). unfold record_bytes, a_record, rr_head. cbn [rName rType rClass rTtl rData]. rewrite L4, app_nil_r, <- !app_assoc. reflexivity. }
  rewrite A5. clear A5. cbn [bind].
  set (o6 := o5 ++ flat_map record_bytes (only_if (0 <? nlen (sIP6 h)) aaaa_record)).
  assert (L7 : nlen o6 = nlen o5 + if 0 <? nlen (sIP6 h) then 28 else 0).
  { unfold o6. rewrite nlen_app. destruct (0 <? nlen (sIP6 h)) eqn:E6; cbn [only_if flat_map]; [|reflexivity]. rewrite app_nil_r, nlen_record. unfold aaaa_record. cbn [rName rData]. rewrite nlen_ref. lia. }
  match goal with |- bind ?e _ = _ => assert (A6 : e = Ok (Some o6)) end.
  { unfold o6. destruct (0 <? nlen (sIP6 h)) eqn:E6; cbn [only_if flat_map]; [|rewrite app_nil_r; reflexivity]. assert (X6 : nlen (sIP6 h) = 16) by lia.
    destruct (some_byte (sIP4 h));
    (rewrite put_ref_ok by lia; cbn [bind]; rewrite need_ok by (rewrite nlen_app, nlen_ref; lia); cbn [bind];
    rewrite put_ok by (rewrite !nlen_app, nlen_ref, nlen_rr_head; lia); unfold record_bytes, aaaa_record, rr_head; cbn [rName rType rClass rTtl rData]; rewrite X6, app_nil_r, <- !app_assoc; reflexivity). }
  rewrite A6. clear A6. cbn [bind].
  assert (Fin : answer qid = o6 ++ flat_map record_bytes (only_if (sent_txt (sTxt h)) txt_record)).
  { unfold o6, o5. rewrite O4, O2. unfold o1, answer, extra, header. cbn [flat_map]. rewrite !flat_map_app.
    unfold record_bytes at 1 2. unfold ptr_record, srv_record. cbn [rName rType rClass rTtl rData].
    rewrite (nlen_app hosts), nlen_ref. rewrite (nlen_app (be_bytes 2 0)), (nlen_app (be_bytes 2 0)), (nlen_app (be_bytes 2 (sPort h))), (nlen_app hosts), !nlen_be_bytes, nlen_ref.
    replace (N.of_nat 2 + (N.of_nat 2 + (N.of_nat 2 + (nlen hosts + 2)))) with (nlen hosts + 8) by lia.
    unfold rr_head, hd, sh. rewrite app_nil_r, <- !app_assoc.
    match goal with |- context [nlen (?x :: only_if (some_byte (sIP4 h)) a_record ++ ?y)] =>
      replace (nlen (x :: only_if (some_byte (sIP4 h)) a_record ++ y))
      with (1 + (if some_byte (sIP4 h) then 1 else 0) + (if 0 <? nlen (sIP6 h) then 1 else 0) + (if sent_txt (sTxt h) then 1 else 0)) end.
    2:{ rewrite nlen_cons, !nlen_app. destruct (some_byte (sIP4 h)), (0 <? nlen (sIP6 h)), (sent_txt (sTxt h)); reflexivity. }
    reflexivity. }
  rewrite Fin. destruct (sent_txt (sTxt h)) eqn:ET; cbn [only_if flat_map]; [|rewrite app_nil_r; reflexivity].
  unfold sent_txt in ET. destruct (some_byte (sIP4 h)), (0 <? nlen (sIP6 h));
  (rewrite put_ref_ok by lia; cbn [bind]; rewrite need_ok by (rewrite nlen_app, nlen_ref; lia); cbn [bind];
    rewrite put_ok by (rewrite !nlen_app, nlen_ref, nlen_rr_head; lia); unfold record_bytes, txt_record, rr_head; cbn [rName rType rClass rTtl rData]; rewrite app_nil_r, <- !app_assoc; reflexivity).
Qed.
End Answer.
