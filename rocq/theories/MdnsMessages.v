(** Lemmas about MdnsModel: whole messages. *)
From Coq Require Import String List NArith ZArith Lia Bool Arith.
From Coq Require Import ZifyN ZifyNat ZifyBool.
From Verif Require Import Bytes BytesProofs Txt NumModel JsonModel ServiceModel ServiceProofs XmlRef MdnsModel MdnsSpec MdnsProofs MdnsWrite.
Import ListNotations.
Open Scope N_scope.
Ltac Zify.zify_post_hook ::= idtac.

(** ** Messages that are received *)
Definition record_ok (r : record) : Prop := rType r < 65536 /\ rClass r < 65536 /\ rTtl r < 4294967296 /\ nlen (rData r) < 65536.
(** The calls that report records lying behind each other from a position on. *)
Fixpoint calls_at (entry pos : N) (rs : list record) : list call :=
  match rs with
  | [] => []
  | r :: rest =>
    mkCall entry (rType r) (rClass r) (rTtl r) pos (nlen (rName r)) (pos + nlen (rName r) + 10) (nlen (rData r))
    :: calls_at entry (pos + nlen (record_bytes r)) rest
  end.
(** Every record has a readable name. *)
Definition named (m : list N) (size pos : N) (rs : list record) : Prop :=
  forall before r after, rs = before ++ r :: after ->
  exists ls, spelled false m size (pos + nlen (flat_map record_bytes before)) ls (pos + nlen (flat_map record_bytes before) + nlen (rName r)).
Section Run.
Variable St : Type.
Variable cb : list N -> N -> call -> St -> res (St * bool).
(** Calls in order until one returns a value other than 0; the number of calls. *)
Fixpoint run_calls (m : list N) (size : N) (calls : list call) (s : St) : res (St * N) :=
  match calls with
  | [] => Ok (s, 0)
  | k :: r =>
    do x <- cb m size k s;
    if snd x then Ok (fst x, 1) else do y <- run_calls m size r (fst x); Ok (fst y, 1 + snd y)
  end.
Lemma nlen_record r : nlen (record_bytes r) = nlen (rName r) + 10 + nlen (rData r).
Proof. unfold record_bytes. rewrite !nlen_app, !nlen_be_bytes. lia. Qed.
Lemma named_tail m size pos r rs : named m size pos (r :: rs) -> named m size (pos + nlen (record_bytes r)) rs.
Proof.
  intros H b x a E. destruct (H (r :: b) x a ltac:(rewrite E; reflexivity)) as [ls X]. exists ls. cbn [flat_map] in X. rewrite nlen_app, N.add_assoc in X. exact X.
Qed.
Lemma parse_records m size : forall rs pre post entry docb s parsed, m = pre ++ flat_map record_bytes rs ++ post -> Forall record_ok rs ->
  named m size (nlen pre) rs ->
  records_parse St cb (List.length rs) m size (nlen pre) entry docb s parsed =
  if docb then do x <- run_calls m size (calls_at entry (nlen pre) rs) s; Ok (fst x, nlen pre + nlen (flat_map record_bytes rs), parsed + snd x)
  else Ok (s, nlen pre + nlen (flat_map record_bytes rs), parsed).
Proof.
  induction rs as [|r rs IH]; intros pre post entry docb s parsed M F H.
  - cbn [List.length records_parse flat_map calls_at run_calls bind fst snd]. change (nlen (@nil N)) with 0. rewrite !N.add_0_r. destruct docb; reflexivity.
  - inversion_clear F as [|? ? F0 FF]. destruct F0 as (F1&F2&F3&F4). cbn [List.length records_parse].
    destruct (H [] r rs eq_refl) as [ls Sp]. cbn [flat_map] in Sp. change (nlen (@nil N)) with 0 in Sp. rewrite N.add_0_r in Sp.
    rewrite (name_skip_spelled m size (nlen pre) ls _ Sp). cbn [bind]. cbv zeta.
    pose proof (named_tail _ _ _ _ _ H) as HT. clear Sp H.
    assert (M' : m = (pre ++ record_bytes r) ++ flat_map record_bytes rs ++ post) by (rewrite M; cbn [flat_map]; rewrite <- !app_assoc; reflexivity).
    assert (E : nlen pre + nlen (record_bytes r) = nlen (pre ++ record_bytes r)) by (rewrite nlen_app; reflexivity).
    set (tail := flat_map record_bytes rs ++ post) in *.
    replace (rd16 m (nlen pre + nlen (rName r))) with (Ok (rType r)).
    2:{ rewrite M'. unfold record_bytes. rewrite <- !app_assoc. rewrite (app_assoc pre (rName r)). symmetry. apply rd16_app; [exact F1|rewrite nlen_app; reflexivity]. }
    cbn [bind].
    replace (rd16 m (nlen pre + nlen (rName r) + 2)) with (Ok (rClass r)).
    2:{ rewrite M'. unfold record_bytes. rewrite <- !app_assoc. rewrite (app_assoc pre (rName r)). rewrite (app_assoc _ (be_bytes 2 (rType r))). symmetry. apply rd16_app; [exact F2|rewrite !nlen_app, nlen_be_bytes; reflexivity]. }
    cbn [bind].
    replace (rd32 m (nlen pre + nlen (rName r) + 4)) with (Ok (rTtl r)).
    2:{ rewrite M'. unfold record_bytes. rewrite <- !app_assoc. rewrite (app_assoc pre (rName r)). rewrite (app_assoc _ (be_bytes 2 (rType r))). rewrite (app_assoc _ (be_bytes 2 (rClass r))).
        symmetry. apply rd32_app; [exact F3|rewrite !nlen_app, !nlen_be_bytes; lia]. }
    cbn [bind].
    replace (rd16 m (nlen pre + nlen (rName r) + 8)) with (Ok (nlen (rData r))).
    2:{ rewrite M'. unfold record_bytes. rewrite <- !app_assoc. rewrite (app_assoc pre (rName r)). rewrite (app_assoc _ (be_bytes 2 (rType r))). rewrite (app_assoc _ (be_bytes 2 (rClass r))). rewrite (app_assoc _ (be_bytes 4 (rTtl r))).
        symmetry. apply rd16_app; [exact F4|rewrite !nlen_app, !nlen_be_bytes; lia]. }
    cbn [bind].
    assert (E2 : nlen pre + nlen (rName r) + 10 + nlen (rData r) = nlen (pre ++ record_bytes r)) by (rewrite nlen_app, nlen_record; lia).
    rewrite E2. rewrite E in HT. cbn [calls_at]. rewrite E.
    assert (L : nlen pre + nlen (flat_map record_bytes (r :: rs)) = nlen (pre ++ record_bytes r) + nlen (flat_map record_bytes rs)) by (cbn [flat_map]; rewrite !nlen_app; lia).
    rewrite L. replace (nlen pre + nlen (rName r) - nlen pre) with (nlen (rName r)) by lia.
    destruct docb.
    + cbn [run_calls]. destruct (cb m size _ s) as [[s' stop]| | |]; try reflexivity. cbn [bind fst snd].
      rewrite (IH _ post entry (negb stop) s' (parsed + 1) M' FF HT). destruct stop; cbn [negb bind fst snd]; [reflexivity|].
      destruct (run_calls m size _ s') as [[s2 n2]| | |]; try reflexivity. cbn [bind fst snd]. f_equal. f_equal. lia.
    + apply (IH _ post entry false s parsed M' FF HT).
Qed.
(** At most one question in front of the answers. *)
Definition question_bytes (qname : list N) (t c : N) : list N := qname ++ be_bytes 2 t ++ be_bytes 2 c.
Lemma nlen_header a b c d e f : nlen (header a b c d e f) = 12.
Proof. reflexivity. Qed.
Lemma header_reads qid flags nq na nu nd rest : qid < 65536 -> flags < 65536 -> nq < 65536 -> na < 65536 -> nu < 65536 -> nd < 65536 ->
  rd16 (header qid flags nq na nu nd ++ rest) 0 = Ok qid /\ rd16 (header qid flags nq na nu nd ++ rest) 2 = Ok flags /\
  rd16 (header qid flags nq na nu nd ++ rest) 4 = Ok nq /\ rd16 (header qid flags nq na nu nd ++ rest) 6 = Ok na /\
  rd16 (header qid flags nq na nu nd ++ rest) 8 = Ok nu /\ rd16 (header qid flags nq na nu nd ++ rest) 10 = Ok nd.
Proof.
  intros A B C D E F. unfold header. rewrite <- !app_assoc. repeat apply conj.
  - apply (rd16_app [] qid); [exact A|reflexivity].
  - apply (rd16_app (be_bytes 2 qid) flags); [exact B|rewrite nlen_be_bytes; reflexivity].
  - rewrite (app_assoc (be_bytes 2 qid)). apply rd16_app; [exact C|reflexivity].
  - rewrite (app_assoc (be_bytes 2 qid)), (app_assoc _ (be_bytes 2 nq)). apply rd16_app; [exact D|reflexivity].
  - rewrite (app_assoc (be_bytes 2 qid)), (app_assoc _ (be_bytes 2 nq)), (app_assoc _ (be_bytes 2 na)). apply rd16_app; [exact E|reflexivity].
  - rewrite (app_assoc (be_bytes 2 qid)), (app_assoc _ (be_bytes 2 nq)), (app_assoc _ (be_bytes 2 na)), (app_assoc _ (be_bytes 2 nu)). apply rd16_app; [exact F|reflexivity].
Qed.
(** A question: nothing, or one name with type and class. *)
Inductive asks (m : list N) (size : N) : N -> list N -> Prop :=
| asks_none : asks m size 0 []
| asks_one qname t c ls : t < 65536 -> c < 65536 -> spelled false m size 12 ls (12 + nlen qname) -> asks m size 1 (question_bytes qname t c).
Lemma skip_asks m size nq q h rest : asks m size nq q -> m = h ++ q ++ rest -> nlen h = 12 ->
  skip_questions (N.to_nat nq) m size 12 = Ok (Some (12 + nlen q)).
Proof.
  intros [|qn t c ls T1 C1 Sp] M H; [reflexivity|]. change (N.to_nat 1) with 1%nat. cbn [skip_questions].
  rewrite (name_skip_spelled _ _ _ _ _ Sp). cbn [bind]. unfold question_bytes in *. rewrite <- !app_assoc in M.
  replace (rd16 m (12 + nlen qn)) with (Ok t).
  2:{ rewrite M, (app_assoc h). symmetry. apply rd16_app; [exact T1|]. rewrite nlen_app, H. reflexivity. }
  cbn [bind]. replace (rd16 m (12 + nlen qn + 2)) with (Ok c).
  2:{ rewrite M, (app_assoc h), (app_assoc _ (be_bytes 2 t)). symmetry. apply rd16_app; [exact C1|]. rewrite !nlen_app, H, nlen_be_bytes. reflexivity. }
  cbn [bind]. rewrite !nlen_app, !nlen_be_bytes. f_equal. f_equal. lia.
Qed.
Lemma recv_message m size only qid flags nq q an au ad rest s :
  m = header qid flags nq (nlen an) (nlen au) (nlen ad) ++ q ++ flat_map record_bytes an ++ flat_map record_bytes au ++ flat_map record_bytes ad ++ rest ->
  qid < 65536 -> flags < 65536 -> nlen an < 65536 -> nlen au < 65536 -> nlen ad < 65536 -> only = 0 \/ only = qid -> asks m size nq q ->
  Forall record_ok an -> Forall record_ok au -> Forall record_ok ad ->
  let p1 := 12 + nlen q in let p2 := p1 + nlen (flat_map record_bytes an) in let p3 := p2 + nlen (flat_map record_bytes au) in
  named m size p1 an -> named m size p2 au -> named m size p3 ad ->
  query_recv St cb m size only s =
  do a <- run_calls m size (calls_at 1 p1 an) s;
  do b <- run_calls m size (calls_at 2 p2 au) (fst a);
  do c <- run_calls m size (calls_at 3 p3 ad) (fst b);
  Ok (fst c, snd a + snd b + snd c).
Proof.
  intros M Q1 Q2 Na Nu Nd On As Fa Fu Fd p1 p2 p3 H1 H2 H3.
  assert (NQ : nq < 65536) by (destruct As; lia).
  destruct (header_reads qid flags nq (nlen an) (nlen au) (nlen ad) (q ++ flat_map record_bytes an ++ flat_map record_bytes au ++ flat_map record_bytes ad ++ rest) Q1 Q2 NQ Na Nu Nd) as (R0&R2&R4&R6&R8&R10).
  rewrite <- M in R0, R2, R4, R6, R8, R10. unfold query_recv. rewrite R0, R2, R4, R6, R8, R10. cbn [bind].
  assert (X1 : (0 <? only) && negb (qid =? only) = false) by (destruct On as [->| ->]; [reflexivity|rewrite N.eqb_refl; apply andb_false_r]).
  assert (X2 : 1 <? nq = false) by (destruct As; reflexivity).
  rewrite X1, X2.
  set (h := header qid flags nq (nlen an) (nlen au) (nlen ad)) in *. assert (Hh : nlen h = 12) by apply nlen_header. clearbody h.
  rewrite (skip_asks m size nq q h _ As M Hh). cbn [bind].
  assert (TN : forall l : list record, N.to_nat (nlen l) = List.length l) by (intros l; unfold nlen; lia). rewrite !TN.
  assert (P1 : 12 + nlen q = nlen (h ++ q)) by (rewrite nlen_app, Hh; reflexivity).
  assert (P2 : p2 = nlen (h ++ q ++ flat_map record_bytes an)) by (unfold p2, p1; rewrite !nlen_app, Hh; lia).
  assert (P3 : p3 = nlen (h ++ q ++ flat_map record_bytes an ++ flat_map record_bytes au)) by (unfold p3, p2, p1; rewrite !nlen_app, Hh; lia).
  fold p1 in P1. fold p1. rewrite P1 in H1 |- *.
  rewrite (parse_records m size an (h ++ q) (flat_map record_bytes au ++ flat_map record_bytes ad ++ rest)) by (try assumption; rewrite M, <- !app_assoc; reflexivity).
  cbv iota. destruct (run_calls m size (calls_at 1 (nlen (h ++ q)) an) s) as [[s1 n1]| | |]; try reflexivity. cbn [bind fst snd]. rewrite <- P1. fold p2. rewrite P2 in H2 |- *.
  rewrite (parse_records m size au (h ++ q ++ flat_map record_bytes an) (flat_map record_bytes ad ++ rest)) by (try assumption; rewrite M, <- !app_assoc; reflexivity).
  cbv iota. destruct (run_calls m size (calls_at 2 _ au) s1) as [[s2 n2]| | |]; try reflexivity. cbn [bind fst snd]. rewrite <- P2. fold p3. rewrite P3 in H3 |- *.
  rewrite (parse_records m size ad (h ++ q ++ flat_map record_bytes an ++ flat_map record_bytes au) rest) by (try assumption; rewrite M, <- !app_assoc; reflexivity).
  cbv iota. destruct (run_calls m size (calls_at 3 _ ad) s2) as [[s3 n3]| | |]; try reflexivity.
Qed.
End Run.
