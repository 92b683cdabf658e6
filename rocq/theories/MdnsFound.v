(** Lemmas about MdnsModel: what a receiver finds in an answer. *)
From Coq Require Import String List NArith ZArith Lia Bool Arith.
From Coq Require Import ZifyN ZifyNat ZifyBool.
From Verif Require Import Bytes BytesProofs Txt NumModel JsonModel ServiceModel ServiceProofs XmlRef MdnsModel MdnsSpec MdnsProofs MdnsWrite MdnsMessages MdnsAnswer.
Import ListNotations.
Open Scope N_scope.
Ltac Zify.zify_post_hook ::= idtac.

Lemma named_nil m size pos : named m size pos [].
Proof. intros [|x b] r a E; discriminate E. Qed.
Lemma named_cons m size pos r rs ls : spelled false m size pos ls (pos + nlen (rName r)) -> named m size (pos + nlen (record_bytes r)) rs -> named m size pos (r :: rs).
Proof.
  intros H K b x a E. destruct b as [|y b].
  - injection E as <- <-. exists ls. cbn [flat_map]. change (nlen (@nil N)) with 0. rewrite N.add_0_r. exact H.
  - injection E as <- ->. destruct (K b x a eq_refl) as [ls' X]. exists ls'. cbn [flat_map]. rewrite nlen_app, N.add_assoc. exact X.
Qed.
Lemma byte_first pre l ls post : byte_at (pre ++ flat_map label_bytes (l :: ls) ++ post) (nlen pre) (nlen l).
Proof. cbn [flat_map label_bytes app]. apply byte_at_app. Qed.
Lemma ref_name m size pre t post ls e b : m = pre ++ ref_bytes t ++ post -> nlen pre + 2 <= size -> t < 16384 -> t < size -> byte_at m t b -> b < 192 ->
  spelled false m size t ls e -> spelled false m size (nlen pre) ls (nlen pre + 2).
Proof.
  intros M L T1 T2 B Bl Sp. pose proof (spelled_ref false pre [] t post size ls e (Forall_nil _) T1 T2) as X. cbn [flat_map app] in X. rewrite <- M in X.
  change (nlen (@nil N)) with 0 in X. rewrite N.add_0_r in X. apply X; [exact L| |exact Sp]. right. exists b. split; assumption.
Qed.

Section Found.
Variable fuel : nat.
Variable ip4_text ip6_text : list N -> list N.
Variable from : list N.
Notation cb := (query_callback fuel ip4_text ip6_text from).
Definition call_at (entry pos : N) (r : record) : call :=
  mkCall entry (rType r) (rClass r) (rTtl r) pos (nlen (rName r)) (pos + nlen (rName r) + 10) (nlen (rData r)).
Definition text_of (ls : list (list N)) : list N := firstn 256 (dotted ls).
Inductive reads_all (m : list N) (size entry : N) : N -> list record -> list (collected -> collected) -> Prop :=
| reads_nil pos : reads_all m size entry pos [] []
| reads_cons pos r u rs us : (forall c, cb m size (call_at entry pos r) c = Ok (u c, false)) ->
    reads_all m size entry (pos + nlen (record_bytes r)) rs us -> reads_all m size entry pos (r :: rs) (u :: us).
Lemma run_reads m size entry pos rs us : reads_all m size entry pos rs us -> forall c,
  run_calls collected cb m size (calls_at entry pos rs) c = Ok (fold_left (fun c u => u c) us c, nlen rs).
Proof.
  induction 1 as [pos|pos r u rs us H R IH]; intros c; cbn [calls_at run_calls fold_left]; [reflexivity|].
  fold (call_at entry pos r). rewrite H. cbn [bind fst snd]. rewrite IH. cbn [bind fst snd]. rewrite nlen_cons. f_equal. f_equal. lia.
Qed.
Definition add_ptr n p c := mkCollected (cSrv c) (cTxt c) (cA c) (cAaaa c) (cPtr c ++ [(from, n, p)]).
Definition add_srv n v c := mkCollected (cSrv c ++ [(from, n, v)]) (cTxt c) (cA c) (cAaaa c) (cPtr c).
Definition add_a n b c := mkCollected (cSrv c) (cTxt c) (cA c ++ [(from, n, ip4_text b)]) (cAaaa c) (cPtr c).
Definition add_aaaa n b c := mkCollected (cSrv c) (cTxt c) (cA c) (cAaaa c ++ [(from, n, ip6_text b)]) (cPtr c).
Definition add_txt n b c := mkCollected (cSrv c) (cTxt c ++ [(from, n, b)]) (cA c) (cAaaa c) (cPtr c).
Lemma extract_text m size off ls e : spelled false m size off ls e -> (List.length ls < fuel)%nat ->
  exists x, extract fuel m size off 256 = Ok x /\ name_text x = text_of ls.
Proof. intros Sp Fu. destruct (name_text_extract fuel m size off 256 ls e Sp Fu) as (x&X&Y&_). exists x. split; [exact X|exact Y]. Qed.
Lemma reads_ptr m size entry pos r ls ls' e' : rType r = 12 -> spelled false m size pos ls (pos + nlen (rName r)) -> (List.length ls < fuel)%nat ->
  spelled false m size (pos + nlen (rName r) + 10) ls' e' -> (List.length ls' < fuel)%nat -> 2 <= nlen (rData r) -> pos + nlen (record_bytes r) <= size ->
  forall c, cb m size (call_at entry pos r) c = Ok (add_ptr (text_of ls) (text_of ls') c, false).
Proof.
  intros Ty Sp Fu Sp' Fu' L2 Ls c. rewrite nlen_record in Ls. destruct (extract_text _ _ _ _ _ Sp Fu) as (x&X1&X2). destruct (extract_text _ _ _ _ _ Sp' Fu') as (y&Y1&Y2).
  unfold query_callback, call_at. cbn [kName kType kOff kLen]. rewrite X1. cbn [bind]. rewrite Ty. change (12 =? 12) with true. cbv iota zeta.
  unfold parse_ptr. rewrite (proj2 (N.leb_le (pos + nlen (rName r) + 10 + nlen (rData r)) size)) by lia. rewrite (proj2 (N.leb_le 2 _)) by exact L2. cbn [andb].
  rewrite Y1. cbn [bind]. rewrite X2, Y2. reflexivity.
Qed.
Lemma reads_srv m size entry pos r ls ls' e' port pre post : rType r = 33 -> spelled false m size pos ls (pos + nlen (rName r)) -> (List.length ls < fuel)%nat ->
  m = pre ++ be_bytes 2 0 ++ be_bytes 2 0 ++ be_bytes 2 port ++ post -> nlen pre = pos + nlen (rName r) + 10 -> port < 65536 ->
  spelled false m size (pos + nlen (rName r) + 10 + 6) ls' e' -> (List.length ls' < fuel)%nat -> 8 <= nlen (rData r) -> pos + nlen (record_bytes r) <= size ->
  forall c, cb m size (call_at entry pos r) c = Ok (add_srv (text_of ls) (port, text_of ls') c, false).
Proof.
  intros Ty Sp Fu M P0 Pp Sp' Fu' L2 Ls c. rewrite nlen_record in Ls. destruct (extract_text _ _ _ _ _ Sp Fu) as (x&X1&X2). destruct (extract_text _ _ _ _ _ Sp' Fu') as (y&Y1&Y2).
  unfold query_callback, call_at. cbn [kName kType kOff kLen]. rewrite X1. cbn [bind]. rewrite Ty. change (33 =? 12) with false. change (33 =? 33) with true. cbv iota zeta.
  unfold parse_srv. rewrite (proj2 (N.leb_le (pos + nlen (rName r) + 10 + nlen (rData r)) size)) by lia. rewrite (proj2 (N.leb_le 8 _)) by exact L2. cbn [andb].
  rewrite <- P0 in Y1 |- *.
  replace (rd16 m (nlen pre)) with (Ok 0) by (rewrite M; symmetry; apply (rd16_app pre 0); [lia|reflexivity]). cbn [bind].
  replace (rd16 m (nlen pre + 2)) with (Ok 0) by (rewrite M, app_assoc; symmetry; apply (rd16_app _ 0); [lia|rewrite nlen_app, nlen_be_bytes; reflexivity]). cbn [bind].
  replace (rd16 m (nlen pre + 4)) with (Ok port) by (rewrite M, !app_assoc, <- app_assoc; symmetry; apply (rd16_app _ port); [exact Pp|rewrite !nlen_app, !nlen_be_bytes; lia]). cbn [bind].
  rewrite Y1. cbn [bind]. rewrite X2, Y2. reflexivity.
Qed.
Lemma data_slice m pre r post : m = pre ++ record_bytes r ++ post -> slice (nlen pre + nlen (rName r) + 10) (nlen (rData r)) m = rData r /\ nlen pre + nlen (rName r) + 10 + nlen (rData r) <= nlen m.
Proof.
  intros M. unfold record_bytes in M. rewrite <- !app_assoc in M. rewrite (app_assoc pre), (app_assoc _ (be_bytes 2 (rType r))), (app_assoc _ (be_bytes 2 (rClass r))), (app_assoc _ (be_bytes 4 (rTtl r))), (app_assoc _ (be_bytes 2 (nlen (rData r)))) in M.
  set (p := ((((pre ++ rName r) ++ _) ++ _) ++ _) ++ _) in M. assert (L : nlen p = nlen pre + nlen (rName r) + 10) by (unfold p; rewrite !nlen_app, !nlen_be_bytes; lia).
  clearbody p. rewrite <- L. split; [rewrite M; apply slice_at; reflexivity|]. rewrite M, !nlen_app. lia.
Qed.
Lemma reads_a m size entry pre r post ls : rType r = 1 -> m = pre ++ record_bytes r ++ post -> spelled false m size (nlen pre) ls (nlen pre + nlen (rName r)) -> (List.length ls < fuel)%nat ->
  nlen (rData r) = 4 -> nlen pre + nlen (record_bytes r) <= size -> forall c, cb m size (call_at entry (nlen pre) r) c = Ok (add_a (text_of ls) (rData r) c, false).
Proof.
  intros Ty M Sp Fu L2 Ls c. rewrite nlen_record in Ls. destruct (extract_text _ _ _ _ _ Sp Fu) as (x&X1&X2). destruct (data_slice _ _ _ _ M) as [D1 D2].
  unfold query_callback, call_at. cbn [kName kType kOff kLen]. rewrite X1. cbn [bind]. rewrite Ty. change (1 =? 12) with false. change (1 =? 33) with false. change (1 =? 1) with true. cbv iota zeta.
  unfold parse_address. rewrite (proj2 (N.leb_le (nlen pre + nlen (rName r) + 10 + nlen (rData r)) size)) by lia. rewrite L2 in *. change (4 =? 4) with true. cbn [andb].
  rewrite rd_bytes_ok by exact D2. cbn [bind]. rewrite X2, D1. reflexivity.
Qed.
Lemma reads_aaaa m size entry pre r post ls : rType r = 28 -> m = pre ++ record_bytes r ++ post -> spelled false m size (nlen pre) ls (nlen pre + nlen (rName r)) -> (List.length ls < fuel)%nat ->
  nlen (rData r) = 16 -> nlen pre + nlen (record_bytes r) <= size -> forall c, cb m size (call_at entry (nlen pre) r) c = Ok (add_aaaa (text_of ls) (rData r) c, false).
Proof.
  intros Ty M Sp Fu L2 Ls c. rewrite nlen_record in Ls. destruct (extract_text _ _ _ _ _ Sp Fu) as (x&X1&X2). destruct (data_slice _ _ _ _ M) as [D1 D2].
  unfold query_callback, call_at. cbn [kName kType kOff kLen]. rewrite X1. cbn [bind]. rewrite Ty. change (28 =? 12) with false. change (28 =? 33) with false. change (28 =? 1) with false. change (28 =? 28) with true. cbv iota zeta.
  unfold parse_address. rewrite (proj2 (N.leb_le (nlen pre + nlen (rName r) + 10 + nlen (rData r)) size)) by lia. rewrite L2 in *. change (16 =? 16) with true. cbn [andb].
  rewrite rd_bytes_ok by exact D2. cbn [bind]. rewrite X2, D1. reflexivity.
Qed.
Lemma reads_txt m size entry pre r post ls : rType r = 16 -> m = pre ++ record_bytes r ++ post -> spelled false m size (nlen pre) ls (nlen pre + nlen (rName r)) -> (List.length ls < fuel)%nat ->
  forall c, cb m size (call_at entry (nlen pre) r) c = Ok (add_txt (text_of ls) (rData r) c, false).
Proof.
  intros Ty M Sp Fu c. destruct (extract_text _ _ _ _ _ Sp Fu) as (x&X1&X2). destruct (data_slice _ _ _ _ M) as [D1 D2].
  unfold query_callback, call_at. cbn [kName kType kOff kLen]. rewrite X1. cbn [bind]. rewrite Ty. change (16 =? 12) with false. change (16 =? 33) with false. change (16 =? 1) with false. change (16 =? 28) with false. change (16 =? 16) with true. cbv iota zeta.
  rewrite rd_bytes_ok by exact D2. cbn [bind]. rewrite X2, D1. reflexivity.
Qed.

(** ** The answer of a station *)
Section Station.
Variable unicast : bool.
Variable svc' : list (list N).
Definition svc : list (list N) := svc' ++ [T"local"].
Variable h : station.
Variable qid : N.
Variable rest : list N.
Definition full : list (list N) := sHost h ++ svc.
Definition host_name : list (list N) := sHost h ++ [T"local"].
(** What is collected. *)
Definition found_in (c : collected) : collected := mkCollected
  (cSrv c ++ [(from, text_of full, (sPort h, text_of host_name))])
  (cTxt c ++ if sent_txt (sTxt h) then [(from, text_of full, sTxt h)] else [])
  (cA c ++ if some_byte (sIP4 h) then [(from, text_of host_name, ip4_text (sIP4 h))] else [])
  (cAaaa c ++ if 0 <? nlen (sIP6 h) then [(from, text_of host_name, ip6_text (sIP6 h))] else [])
  (cPtr c ++ [(from, text_of svc, text_of full)]).
Lemma recv_answer only c : Forall label svc' -> Forall label (sHost h) -> sHost h <> [] -> (List.length full < fuel)%nat ->
  nlen (sIP4 h) = 4 -> (nlen (sIP6 h) = 0 \/ nlen (sIP6 h) = 16) -> sPort h < 65536 -> qid < 65536 ->
  let m := answer unicast svc h qid ++ rest in let size := nlen (answer unicast svc h qid) in
  size < 16384 -> only = 0 \/ only = (if unicast then qid else 0) ->
  query_recv collected cb m size only c = Ok (found_in c, 1 + nlen (extra unicast svc h)).
Proof.
  intros Fs Fh Hne Fu L4 L6 Pp Pq m size Sz On.
  assert (Flocal : label (T"local")) by (split; [vm_compute; split; discriminate|vm_compute; intuition discriminate]).
  assert (Fsvc : Forall label svc) by (apply Forall_app; split; [exact Fs|constructor; [exact Flocal|constructor]]).
  pose proof (nlen_answer unicast svc h qid L4 L6) as NA. fold size in NA.
  set (W := nlen (wire svc)) in *.
  assert (LW : W = nlen (flat_map label_bytes svc') + 7).
  { unfold W. rewrite nlen_wire. unfold svc. rewrite flat_map_app, nlen_app. change (nlen (flat_map label_bytes [T"local"])) with 6. lia. }
  set (F := full_at unicast svc) in *. set (H := hosts h) in *. set (HO := host_at unicast svc h) in *.
  assert (EF : F = if unicast then 12 + W + 4 + 2 + 10 else 12 + W + 10).
  { unfold F, full_at. rewrite nlen_asked, nlen_ptr_name. fold W. destruct unicast; lia. }
  assert (EH : HO = F + nlen H + 20) by (unfold HO, host_at; fold F H; lia).
  destruct (sHost h) as [|h0 hs] eqn:Eh; [contradiction|]. rewrite <- Eh in *. clear Hne.
  assert (Lh0 : 1 <= nlen h0 <= 63) by (rewrite Eh in Fh; inversion_clear Fh as [|? ? X _]; destruct X as [X _]; exact X).
  assert (HH : 2 <= nlen H) by (unfold H, hosts; rewrite Eh, labels_cons, nlen_cons, nlen_app; lia).
  (* the pieces *)
  set (hd := header (if unicast then qid else 0) 33792 (if unicast then 1 else 0) 1 0 (nlen (extra unicast svc h))) in *.
  assert (Hd : nlen hd = 12) by apply nlen_header.
  set (q := asked unicast svc) in *. set (P := ptr_record unicast svc h) in *. set (E := extra unicast svc h) in *.
  assert (M0 : m = hd ++ q ++ flat_map record_bytes [P] ++ flat_map record_bytes E ++ rest).
  { unfold m, answer. fold hd q P E. rewrite <- !app_assoc. reflexivity. }
  assert (Size : size + nlen rest = nlen m) by (unfold m; rewrite nlen_app; reflexivity).
  (* the service at 12 *)
  assert (X12 : exists post, m = hd ++ wire svc ++ post).
  { rewrite M0. unfold q, asked, P, ptr_record, ptr_name. cbn [flat_map]. unfold record_bytes. cbn [rName]. unfold question_bytes. destruct unicast; cbn [app]; rewrite <- ?app_assoc; eexists; reflexivity. }
  destruct X12 as [post12 X12].
  assert (S12 : spelled false m size 12 svc (12 + W)).
  { rewrite X12. rewrite <- Hd. apply spelled_wire; [exact Fsvc|]. rewrite Hd. fold W. destruct unicast; lia. }
  assert (B12 : exists b, byte_at m 12 b /\ b < 192).
  { rewrite X12, <- Hd. unfold svc. destruct svc' as [|s0 sr]; cbn [app].
    - exists 5. split; [apply byte_at_app|lia].
    - exists (nlen s0). inversion_clear Fs as [|? ? X _]. destruct X as [X _]. split; [|lia]. rewrite wire_cons. cbn [app]. apply byte_at_app. }
  destruct B12 as (b12&B12&Bl12).
  (* "local" *)
  assert (SL : spelled false m size (local_at svc) [T"local"] (12 + W)).
  { assert (X : m = (hd ++ flat_map label_bytes svc') ++ wire [T"local"] ++ post12).
    { rewrite X12. unfold wire, svc. rewrite flat_map_app, <- !app_assoc. reflexivity. }
    rewrite X. replace (local_at svc) with (nlen (hd ++ flat_map label_bytes svc')) by (rewrite nlen_app, Hd; unfold local_at; fold W; lia).
    replace (12 + W) with (nlen (hd ++ flat_map label_bytes svc') + nlen (wire [T"local"])) by (rewrite nlen_app, Hd, LW; change (nlen (wire [T"local"])) with 7; lia).
    apply spelled_wire; [constructor; [exact Flocal|constructor]|]. rewrite nlen_app, Hd. change (nlen (wire [T"local"])) with 7. destruct unicast; lia. }
  assert (BL : byte_at m (local_at svc) 5).
  { assert (X : m = (hd ++ flat_map label_bytes svc') ++ 5 :: T"local" ++ 0 :: post12).
    { rewrite X12. unfold wire, svc. rewrite flat_map_app, <- !app_assoc. reflexivity. }
    rewrite X. replace (local_at svc) with (nlen (hd ++ flat_map label_bytes svc')) by (rewrite nlen_app, Hd; unfold local_at; fold W; lia). apply byte_at_app. }
  (* the name of the PTR record *)
  set (p1 := 12 + nlen q).
  assert (EP : p1 + nlen (ptr_name unicast svc) + 10 = F) by (unfold p1, F, full_at; fold q; lia).
  assert (SP : spelled false m size p1 svc (p1 + nlen (rName P))).
  { unfold P, ptr_record. cbn [rName]. unfold p1, q, asked, ptr_name. destruct unicast eqn:EU.
    - change (nlen (ref_bytes 12)) with 2. set (qb := question_bytes (wire svc) 12 32769).
      assert (X : m = (hd ++ qb) ++ ref_bytes 12 ++ rr_head 12 (cls true) (ttl true) (nlen (H ++ ref_bytes 12)) ++ H ++ ref_bytes 12 ++ flat_map record_bytes E ++ rest).
      { rewrite M0. cbn [flat_map]. unfold P, ptr_record, record_bytes, ptr_name, rr_head. cbn [rName rType rClass rTtl rData]. rewrite app_nil_r, <- !app_assoc. reflexivity. }
      replace (12 + nlen qb) with (nlen (hd ++ qb)) by (rewrite nlen_app, Hd; reflexivity).
      apply (ref_name m size (hd ++ qb) 12 _ svc (12 + W) b12 X); try assumption; try lia.
      rewrite nlen_app, Hd. unfold qb, question_bytes. rewrite !nlen_app, !nlen_be_bytes. fold W. lia.
    - change (nlen (@nil N)) with 0. rewrite N.add_0_r. fold W. exact S12. }
  (* the full name *)
  assert (XF : exists pre post, m = pre ++ H ++ ref_bytes 12 ++ post /\ nlen pre = F).
  { exists (hd ++ q ++ ptr_name unicast svc ++ rr_head 12 (cls unicast) (ttl unicast) (nlen (H ++ ref_bytes 12))), (flat_map record_bytes E ++ rest). split.
    - rewrite M0. cbn [flat_map]. unfold P, ptr_record, record_bytes, rr_head. cbn [rName rType rClass rTtl rData]. rewrite app_nil_r, <- !app_assoc. reflexivity.
    - rewrite !nlen_app, Hd, nlen_rr_head. unfold F, full_at. fold q. lia. }
  destruct XF as (preF&postF&XF&NF).
  assert (SF : spelled false m size F full (F + nlen H + 2)).
  { rewrite <- NF. unfold full. rewrite XF. unfold H, hosts in *. eapply spelled_ref; try exact Fh; try lia; rewrite <- XF; [|exact S12]. right. exists b12. split; assumption. }
  assert (BF : byte_at m F (nlen h0)) by (rewrite XF, <- NF; unfold H, hosts; rewrite Eh; apply byte_first).
  (* the host name *)
  set (p3 := p1 + nlen (flat_map record_bytes [P]) + nlen (flat_map record_bytes [])).
  assert (P3 : p3 = F + nlen H + 2).
  { unfold p3. cbn [flat_map]. rewrite app_nil_r, nlen_record. unfold P, ptr_record. cbn [rName rData]. rewrite nlen_app, nlen_ref. fold H. change (nlen (@nil N)) with 0. lia. }
  set (E' := only_if (some_byte (sIP4 h)) (a_record unicast svc h) ++ only_if (0 <? nlen (sIP6 h)) (aaaa_record unicast svc h) ++ only_if (sent_txt (sTxt h)) (txt_record unicast svc h)).
  assert (EE : E = srv_record unicast svc h :: E') by reflexivity.
  set (pre3 := hd ++ q ++ record_bytes P).
  assert (N3 : nlen pre3 = p3) by (unfold pre3, p3, p1; cbn [flat_map]; rewrite !nlen_app, Hd; change (nlen (@nil N)) with 0; lia).
  assert (M3 : m = pre3 ++ record_bytes (srv_record unicast svc h) ++ flat_map record_bytes E' ++ rest).
  { rewrite M0, EE. cbn [flat_map]. unfold pre3. rewrite app_nil_r, <- !app_assoc. reflexivity. }
  assert (LS : nlen (record_bytes (srv_record unicast svc h)) = 18 + nlen H + 2).
  { rewrite nlen_record. unfold srv_record. cbn [rName rData]. rewrite !nlen_app, !nlen_ref, !nlen_be_bytes. fold H. lia. }
  assert (XH : exists pre post, m = pre ++ be_bytes 2 0 ++ be_bytes 2 0 ++ be_bytes 2 (sPort h) ++ H ++ ref_bytes (local_at svc) ++ post /\ nlen pre = p3 + 2 + 10).
  { exists (pre3 ++ ref_bytes F ++ rr_head 33 (cls unicast) (ttl unicast) (nlen (rData (srv_record unicast svc h)))), (flat_map record_bytes E' ++ rest). split.
    - rewrite M3. unfold record_bytes at 1. unfold srv_record at 1 2 3 4 6. cbn [rName rType rClass rTtl]. fold F H. unfold rr_head. rewrite <- !app_assoc. unfold srv_record at 2. cbn [rData]. rewrite <- !app_assoc. reflexivity.
    - rewrite !nlen_app, nlen_ref, nlen_rr_head, N3. lia. }
  destruct XH as (preH&postH&XH&NH).
  assert (SH : spelled false m size HO host_name (HO + nlen H + 2)).
  { set (pre' := preH ++ be_bytes 2 0 ++ be_bytes 2 0 ++ be_bytes 2 (sPort h)).
    assert (X : m = pre' ++ H ++ ref_bytes (local_at svc) ++ postH) by (rewrite XH; unfold pre'; rewrite <- !app_assoc; reflexivity).
    assert (NP : nlen pre' = HO) by (unfold pre'; rewrite !nlen_app, !nlen_be_bytes, NH; lia).
    rewrite <- NP. unfold host_name. rewrite X. assert (local_at svc < 16384 /\ local_at svc < size) by (unfold local_at; fold W; destruct unicast; lia).
    unfold H, hosts in *. eapply spelled_ref; try exact Fh; try lia; rewrite <- X; [|exact SL]. right. exists 5. split; [exact BL|lia]. }
  assert (BH : byte_at m HO (nlen h0)).
  { set (pre' := preH ++ be_bytes 2 0 ++ be_bytes 2 0 ++ be_bytes 2 (sPort h)).
    assert (X : m = pre' ++ H ++ ref_bytes (local_at svc) ++ postH) by (rewrite XH; unfold pre'; rewrite <- !app_assoc; reflexivity).
    assert (NP : nlen pre' = HO) by (unfold pre'; rewrite !nlen_app, !nlen_be_bytes, NH; lia).
    rewrite X, <- NP. unfold H, hosts. rewrite Eh. apply byte_first. }
  assert (Ffull : (List.length svc < fuel)%nat /\ (List.length host_name < fuel)%nat).
  { unfold full, svc, host_name in *. rewrite !app_length in *. cbn [List.length] in *. lia. }
  (* the records *)
  assert (R1 : reads_all m size 1 p1 [P] [add_ptr (text_of svc) (text_of full)]).
  { constructor; [|constructor]. refine (reads_ptr m size 1 p1 P svc full (F + nlen H + 2) eq_refl SP (proj1 Ffull) _ Fu _ _).
    - replace (p1 + nlen (rName P) + 10) with F by (unfold P, ptr_record; cbn [rName]; lia). exact SF.
    - unfold P, ptr_record. cbn [rData]. rewrite nlen_app, nlen_ref. lia.
    - rewrite nlen_record. unfold P, ptr_record. cbn [rName rData]. rewrite nlen_app, nlen_ref. fold H. lia. }
  set (us := add_srv (text_of full) (sPort h, text_of host_name) ::
             (if some_byte (sIP4 h) then [add_a (text_of host_name) (sIP4 h)] else []) ++
             (if 0 <? nlen (sIP6 h) then [add_aaaa (text_of host_name) (sIP6 h)] else []) ++
             (if sent_txt (sTxt h) then [add_txt (text_of full) (sTxt h)] else [])).
  assert (RN : forall pre r post, m = pre ++ record_bytes r ++ post -> nlen pre + nlen (record_bytes r) <= size ->
     (rName r = ref_bytes F -> spelled false m size (nlen pre) full (nlen pre + nlen (rName r))) /\ (rName r = ref_bytes HO -> spelled false m size (nlen pre) host_name (nlen pre + nlen (rName r)))).
  { intros pre r post X L. rewrite nlen_record in L. split; intros RN; rewrite RN in *; rewrite nlen_ref in *.
    - refine (ref_name m size pre F _ full _ (nlen h0) _ _ _ _ BF _ SF); try lia. rewrite X. unfold record_bytes. rewrite RN, <- !app_assoc. reflexivity.
    - refine (ref_name m size pre HO _ host_name _ (nlen h0) _ _ _ _ BH _ SH); try lia. rewrite X. unfold record_bytes. rewrite RN, <- !app_assoc. reflexivity. }
  assert (RR : reads_all m size 3 p3 E us /\ named m size p3 E).
  { assert (SR : nlen pre3 + nlen (record_bytes (srv_record unicast svc h)) <= size) by (rewrite N3, LS; lia).
    destruct (RN pre3 _ _ M3 SR) as [N1 _]. specialize (N1 eq_refl).
    rewrite EE. unfold us. rewrite <- N3.
    assert (Srv : forall c, cb m size (call_at 3 (nlen pre3) (srv_record unicast svc h)) c = Ok (add_srv (text_of full) (sPort h, text_of host_name) c, false)).
    { refine (reads_srv m size 3 (nlen pre3) (srv_record unicast svc h) full host_name (HO + nlen H + 2) (sPort h) preH (H ++ ref_bytes (local_at svc) ++ postH) eq_refl N1 Fu XH _ Pp _ (proj2 Ffull) _ SR).
      - rewrite NH, N3. reflexivity.
      - replace (nlen pre3 + nlen (rName (srv_record unicast svc h)) + 10 + 6) with HO; [exact SH|]. rewrite N3. unfold srv_record. cbn [rName]. rewrite nlen_ref. lia.
      - unfold srv_record. cbn [rData]. rewrite !nlen_app, !nlen_be_bytes, nlen_ref. lia. }
    set (pre4 := pre3 ++ record_bytes (srv_record unicast svc h)). assert (N4 : nlen pre3 + nlen (record_bytes (srv_record unicast svc h)) = nlen pre4) by (unfold pre4; rewrite nlen_app; reflexivity).
    assert (M4 : m = pre4 ++ flat_map record_bytes E' ++ rest) by (rewrite M3; unfold pre4; rewrite <- app_assoc; reflexivity).
    assert (Z4 : nlen (flat_map record_bytes E') + nlen pre4 = size).
    { pose proof (f_equal nlen M4) as Z. rewrite !nlen_app in Z. rewrite <- Size in Z. lia. }
    cut (reads_all m size 3 (nlen pre4) E' (List.tl us) /\ named m size (nlen pre4) E').
    { intros [A B]. rewrite <- N4 in A, B. split; [constructor; [exact Srv|exact A]|apply (named_cons _ _ _ _ _ full); [exact N1|exact B]]. }
    unfold us. cbn [List.tl]. clear Srv N4. clear EE. clearbody pre4. unfold E' in *. clear E'.
    assert (One : forall (b : bool) r u ls rs us', (b = true -> rName r = ref_bytes F /\ ls = full \/ rName r = ref_bytes HO /\ ls = host_name) ->
       (b = true -> forall pre post, m = pre ++ record_bytes r ++ post -> spelled false m size (nlen pre) ls (nlen pre + nlen (rName r)) -> nlen pre + nlen (record_bytes r) <= size -> forall c, cb m size (call_at 3 (nlen pre) r) c = Ok (u c, false)) ->
       (forall pre, m = pre ++ flat_map record_bytes rs ++ rest -> nlen (flat_map record_bytes rs) + nlen pre = size -> reads_all m size 3 (nlen pre) rs us' /\ named m size (nlen pre) rs) ->
       forall pre, m = pre ++ flat_map record_bytes (only_if b r ++ rs) ++ rest -> nlen (flat_map record_bytes (only_if b r ++ rs)) + nlen pre = size ->
       reads_all m size 3 (nlen pre) (only_if b r ++ rs) ((if b then [u] else []) ++ us') /\ named m size (nlen pre) (only_if b r ++ rs)).
    { intros b r u ls rs us' Hn Hr K pre M Z. destruct b; [|exact (K pre M Z)]. cbn [only_if app flat_map] in *.
      rewrite <- app_assoc in M. rewrite nlen_app in Z.
      assert (L : nlen pre + nlen (record_bytes r) <= size) by lia.
      assert (Sn : spelled false m size (nlen pre) ls (nlen pre + nlen (rName r))).
      { destruct (RN pre r _ M L) as [A B]. destruct (Hn eq_refl) as [[C ->]|[C ->]]; [apply A|apply B]; exact C. }
      destruct (K (pre ++ record_bytes r)) as [A B]; [rewrite M, <- app_assoc; reflexivity|rewrite nlen_app; lia|].
      rewrite nlen_app in A, B. split; [constructor; [|exact A]|apply (named_cons _ _ _ _ _ ls); assumption].
      apply (Hr eq_refl pre _ M Sn L). }
    revert M4 Z4. revert pre4. refine (One _ _ _ host_name _ _ _ _ _).
    - intros _. right. split; reflexivity.
    - intros _ pre post X Sn L. refine (reads_a m size 3 pre (a_record unicast svc h) post _ eq_refl X Sn (proj2 Ffull) L4 L).
    - refine (One _ _ _ host_name _ _ _ _ _).
      + intros _. right. split; reflexivity.
      + intros B6 pre post X Sn L. refine (reads_aaaa m size 3 pre (aaaa_record unicast svc h) post _ eq_refl X Sn (proj2 Ffull) _ L). apply N.ltb_lt in B6. unfold aaaa_record. cbn [rData]. lia.
      + rewrite <- (app_nil_r (only_if (sent_txt (sTxt h)) (txt_record unicast svc h))). rewrite <- (app_nil_r (if sent_txt (sTxt h) then [add_txt (text_of full) (sTxt h)] else [])).
        refine (One _ _ _ full _ _ _ _ _).
        * intros _. left. split; reflexivity.
        * intros _ pre post X Sn L. exact (reads_txt m size 3 pre (txt_record unicast svc h) post _ eq_refl X Sn Fu).
        * intros pre _ _. split; [constructor|apply named_nil]. }
  destruct RR as [R3 Nm3].
  assert (Cl : cls unicast < 65536 /\ ttl unicast < 4294967296) by (unfold cls, ttl; destruct unicast; lia).
  assert (RO : Forall record_ok [P] /\ Forall record_ok E).
  { assert (L8 : sent_txt (sTxt h) = true -> nlen (sTxt h) < 65536) by (unfold sent_txt; lia). split; [constructor; [|constructor]|].
    - unfold record_ok, P, ptr_record. cbn [rType rClass rTtl rData]. rewrite nlen_app, nlen_ref. fold H. lia.
    - rewrite EE. constructor; [unfold record_ok, srv_record; cbn [rType rClass rTtl rData]; rewrite !nlen_app, !nlen_be_bytes, nlen_ref; fold H; lia|].
      unfold E'. rewrite !Forall_app.
      split; [|split].
      + destruct (some_byte (sIP4 h)); cbn [only_if]; constructor; [|constructor]. unfold record_ok, a_record. cbn [rType rClass rTtl rData]. lia.
      + destruct (0 <? nlen (sIP6 h)); cbn [only_if]; constructor; [|constructor]. unfold record_ok, aaaa_record. cbn [rType rClass rTtl rData]. lia.
      + destruct (sent_txt (sTxt h)); cbn [only_if]; constructor; [|constructor]. unfold record_ok, txt_record. cbn [rType rClass rTtl rData]. specialize (L8 eq_refl). lia. }
  destruct RO as [RO1 RO3].
  assert (NE : nlen E < 65536).
  { rewrite EE, nlen_cons. unfold E'. rewrite !nlen_app. destruct (some_byte (sIP4 h)), (0 <? nlen (sIP6 h)), (sent_txt (sTxt h)); cbn; lia. }
  rewrite (recv_message collected cb m size only (if unicast then qid else 0) 33792 (if unicast then 1 else 0) q [P] [] E rest c); try assumption; try constructor; try lia.
  - fold p1. fold p3. rewrite (run_reads _ _ _ _ _ _ R1). cbn [bind fst snd calls_at run_calls]. rewrite (run_reads _ _ _ _ _ _ R3). cbn [bind fst snd]. f_equal. f_equal.
    unfold us, found_in. cbn [fold_left]. unfold add_ptr, add_srv, add_a, add_aaaa, add_txt.
    destruct (some_byte (sIP4 h)), (0 <? nlen (sIP6 h)), (sent_txt (sTxt h)); cbn [app fold_left cSrv cTxt cA cAaaa cPtr]; rewrite ?app_nil_r; reflexivity.
  - destruct unicast; lia.
  - destruct unicast eqn:EU.
    + unfold q, asked. apply (asks_one m size (wire svc) 12 32769 svc); try lia. exact S12.
    + unfold q, asked. constructor.
  - fold p1. apply (named_cons _ _ _ _ _ svc); [exact SP|apply named_nil].
  - apply named_nil.
Qed.
End Station.
End Found.
