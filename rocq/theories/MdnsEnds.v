(** Lemmas about MdnsModel: sending never leaves the buffer, questions and their answers. *)
From Coq Require Import String List NArith ZArith Lia Bool Arith.
From Coq Require Import ZifyN ZifyNat ZifyBool.
From Verif Require Import Bytes BytesProofs Txt NumModel JsonModel ServiceModel ServiceProofs XmlRef MdnsModel MdnsSpec MdnsProofs MdnsWrite MdnsMessages MdnsAnswer.
Import ListNotations.
Open Scope N_scope.
Ltac Zify.zify_post_hook ::= idtac.

(** ** The comparison with "_services._dns-sd._udp.local." ends *)
Lemma equal_step f m1 size1 cur1 end1 m2 size2 cur2 end2 p2 : next_part m2 size2 cur2 = Ok (Some p2) -> rd_bytes m2 (pOff p2) (pLen p2) <> Loop ->
  (pLen p2 = 0 \/ forall c e1 e2, equal_loop f m1 size1 c e1 m2 size2 (pOff p2 + pLen p2) e2 <> Loop) ->
  equal_loop (S f) m1 size1 cur1 end1 m2 size2 cur2 end2 <> Loop.
Proof.
  intros P R H. cbn [equal_loop]. destruct (next_part m1 size1 cur1) as [p1| | |] eqn:P1; cbn [bind]; try discriminate.
  2:{ destruct (next_not_loop m1 size1 cur1). contradiction. }
  rewrite P. cbn [bind]. destruct p1 as [p1|]; [|discriminate]. destruct (N.eqb_spec (pLen p1) (pLen p2)) as [E|E]; cbn [negb]; [|discriminate].
  assert (X : rd_bytes m1 (pOff p1) (pLen p2) <> Loop) by (unfold rd_bytes; destruct (_ <? _); discriminate).
  destruct (rd_bytes m1 _ _) as [b1| | |]; cbn [bind]; try discriminate; [|contradiction]. destruct (rd_bytes m2 _ _) as [b2| | |]; cbn [bind]; try discriminate; [|contradiction].
  destruct (same_nocase b2 b1); cbn [negb]; [|discriminate]. cbv zeta. destruct H as [H|H].
  - rewrite (proj2 (N.eqb_eq (pLen p1) 0)) by lia. discriminate.
  - destruct (pLen p1 =? 0); [discriminate|]. apply H.
Qed.
Lemma is_services_ends m size off : is_services m size off <> Loop.
Proof.
  unfold is_services. assert (H : equal_loop 6 m size off None services_query (nlen services_query) 12 None <> Loop).
  2:{ destruct (equal_loop 6 _ _ _ _ _ _ _ _) as [[r|]| | |]; cbn [bind]; try discriminate. contradiction. }
  assert (K : forall f cur p, next_part services_query (nlen services_query) cur = Ok (Some p) ->
    (pLen p = 0 \/ forall c e1 e2, equal_loop f m size c e1 services_query (nlen services_query) (pOff p + pLen p) e2 <> Loop) ->
    forall c e1 e2, equal_loop (S f) m size c e1 services_query (nlen services_query) cur e2 <> Loop).
  { intros f cur p P Q c e1 e2. apply (equal_step f _ _ _ _ _ _ _ _ p P); [unfold rd_bytes; destruct (_ <? _); discriminate|exact Q]. }
  apply (K 5%nat 12 (mkPart 13 9 false)); [vm_compute; reflexivity|right]. apply (K 4%nat 22 (mkPart 23 7 false)); [vm_compute; reflexivity|right].
  apply (K 3%nat 30 (mkPart 31 4 false)); [vm_compute; reflexivity|right]. apply (K 2%nat 35 (mkPart 36 5 false)); [vm_compute; reflexivity|right].
  apply (K 1%nat 41 (mkPart 41 0 false)); [vm_compute; reflexivity|left; reflexivity].
Qed.

(** ** Sending *)
Lemma make_enough : forall fuel rest cap out, (List.length rest < fuel)%nat -> nlen rest + 2 <= cap -> exists b, make_loop fuel rest cap out = Ok (Some b).
Proof.
  induction fuel as [|f IH]; intros rest cap out Fu C; [lia|]. cbn [make_loop]. destruct rest as [|x r] eqn:E.
  - rewrite (proj2 (N.eqb_neq _ _)) by lia. eexists. reflexivity.
  - rewrite <- E in *. clear x r E. destruct (find_char 46 rest) as [i|] eqn:Ei; cbv zeta.
    + assert (I : (i < List.length rest)%nat).
      { clear -Ei. revert i Ei. induction rest as [|x r IH]; intros i Ei; cbn [find_char] in Ei; [discriminate Ei|]. destruct (x =? 46); [injection Ei as <-; cbn [List.length]; lia|].
        destruct (find_char 46 r) as [j|]; [|discriminate Ei]. injection Ei as <-. specialize (IH j eq_refl). cbn [List.length]. lia. }
      unfold nlen in C. rewrite (proj2 (N.ltb_lt (N.of_nat i) cap)) by lia. apply IH.
      * rewrite skipn_length. lia.
      * unfold nlen. rewrite skipn_length. lia.
    + rewrite (proj2 (N.ltb_lt (nlen rest) cap)) by lia. rewrite (proj2 (N.eqb_neq _ _)) by lia. eexists. reflexivity.
Qed.
Lemma name_make_enough cap s : nlen s + 2 <= cap -> exists b, name_make cap s = Ok (Some b) /\ nlen b <= nlen s + 2.
Proof.
  intros H. destruct (make_enough (S (List.length s)) s cap [] ltac:(lia) H) as [b B]. exists b. split; [exact B|].
  destruct (name_make_any cap s) as (r&R&Bd). unfold name_make in R. rewrite B in R. injection R as <-. apply (Bd b eq_refl).
Qed.
Lemma put_bound cap out b : nlen out + nlen b <= cap -> exists o, put cap out b = Ok (Some o) /\ nlen o = nlen out + nlen b.
Proof. intros H. rewrite put_ok by exact H. eexists. split; [reflexivity|apply nlen_app]. Qed.
(** A step either fails cleanly or stays inside. *)
Definition within (cap : N) (r : res (option (list N))) : Prop := exists o, r = Ok o /\ forall b, o = Some b -> nlen b <= cap.
Lemma within_none cap : within cap (Ok None). Proof. exists None. split; [reflexivity|discriminate]. Qed.
Lemma within_put cap out b : nlen out + nlen b <= cap -> within cap (put cap out b).
Proof. intros H. destruct (put_bound cap out b H) as (o&E&L). rewrite E. exists (Some o). split; [reflexivity|]. intros x Hx. injection Hx as <-. lia. Qed.
Lemma within_need cap n out f : (n < cap - nlen out -> within cap f) -> within cap (do o <- need cap n out; match o with None => Ok None | Some _ => f end).
Proof. intros H. unfold need. destruct (N.leb_spec (cap - nlen out) n) as [L|L]; cbn [bind]; [apply within_none|exact (H L)]. Qed.
Lemma within_bind cap r f : within cap r -> (forall b, nlen b <= cap -> r = Ok (Some b) -> within cap (f b)) -> within cap (do o <- r; match o with None => Ok None | Some b => f b end).
Proof. intros (o&->&B) H. cbn [bind]. destruct o as [b|]; [apply H; [apply B; reflexivity|reflexivity]|apply within_none]. Qed.
Lemma make_ref_len cap t b : make_ref cap t = Some b -> 2 <= cap /\ nlen b = 2.
Proof. unfold make_ref. destruct (N.ltb_spec cap 2); [discriminate|]. intros H0. injection H0 as <-. rewrite nlen_be_bytes. split; [exact H|reflexivity]. Qed.
Lemma within_put_ref cap out t : nlen out <= cap -> within cap (put_ref cap out t).
Proof.
  intros H. unfold put_ref. destruct (make_ref (cap - nlen out) t) as [b|] eqn:E; [|apply within_none]. apply make_ref_len in E. apply within_put. lia.
Qed.
Lemma put_ref_len cap out t o : put_ref cap out t = Ok (Some o) -> nlen o = nlen out + 2.
Proof.
  unfold put_ref. destruct (make_ref (cap - nlen out) t) as [b|] eqn:E; [|discriminate]. apply make_ref_len in E. unfold put. destruct (_ <=? _); [|discriminate]. intros H. injection H as <-. rewrite nlen_app. lia.
Qed.
Lemma within_put_name cap out s : nlen out <= cap -> within cap (put_name cap out s).
Proof.
  intros H. unfold put_name. destruct (name_make_any (cap - nlen out) s) as (r&->&B). cbn [bind]. destruct r as [b|]; [|apply within_none]. specialize (B b eq_refl). apply within_put. lia.
Qed.
Lemma put_name_len cap out s o : put_name cap out s = Ok (Some o) -> nlen o <= nlen out + nlen s + 2.
Proof.
  unfold put_name. destruct (name_make_any (cap - nlen out) s) as (r&->&B). cbn [bind]. destruct r as [b|]; [|discriminate]. specialize (B b eq_refl). unfold put. destruct (_ <=? _); [|discriminate].
  intros H. injection H as <-. rewrite nlen_app. lia.
Qed.
(** mdns_string_make_with_ref is only safe when the whole name fits. *)
Lemma put_with_ref_room cap out s t : nlen out + nlen s + 2 <= cap -> exists o, put_with_ref cap out s t = Ok o /\ forall b, o = Some b -> nlen b <= cap /\ nlen out <= nlen b /\ nlen b <= nlen out + nlen s + 3.
Proof.
  intros H. unfold put_with_ref, make_with_ref. destruct (name_make_enough (cap - nlen out) s ltac:(lia)) as (b&->&B). cbn [bind]. cbv zeta.
  destruct (name_make_any (cap - nlen out) s) as (r&_&_).
  destruct (N.eqb_spec (cap - nlen out - nlen b) 0) as [Z|Z]; [exists None; split; [reflexivity|discriminate]|].
  destruct (make_ref (cap - nlen out - nlen b + 1) t) as [x|] eqn:E; [|exists None; split; [reflexivity|discriminate]]. apply make_ref_len in E. cbn [bind].
  assert (RL : nlen (removelast b) <= nlen b - 1 \/ b = []).
  { destruct b as [|b0 br] eqn:Eb; [right; reflexivity|left]. pose proof (app_removelast_last 0 (l := b) ltac:(rewrite Eb; discriminate)) as A. rewrite Eb in A. unfold nlen. rewrite A at 2. rewrite app_length. cbn [List.length]. lia. }
  assert (RB : nlen (removelast b) <= nlen b) by (destruct RL as [L| ->]; [lia|cbn; lia]).
  destruct (put_bound cap out (removelast b ++ x)) as (o&O1&O2).
  { rewrite nlen_app. destruct RL as [L| ->]; [lia|]. cbn [removelast]. change (nlen (@nil N)) with 0 in *. lia. }
  exists (Some o). split; [exact O1|]. intros y Hy. injection Hy as <-. rewrite nlen_app in O2. destruct RL as [L| ->]; [lia|]. cbn [removelast] in O2. change (nlen (@nil N)) with 0 in *. lia.
Qed.
Lemma nlen_patch pos v out : pos + 2 <= nlen out -> nlen (patch16 pos v out) = nlen out.
Proof. intros H. unfold patch16. rewrite !nlen_app, nlen_be_bytes. unfold nlen in *. rewrite firstn_length, skipn_length. lia. Qed.
Lemma query_send_within cap type name qid multi : within cap (query_send cap type name qid multi).
Proof.
  unfold query_send. destruct (N.ltb_spec cap (17 + nlen name)) as [L|L]; [apply within_none|].
  set (hd := be_bytes 2 qid ++ _). assert (Hd : nlen hd = 12) by reflexivity. rewrite put_ok by (rewrite Hd; change (nlen (@nil N)) with 0; lia). cbn [bind app].
  destruct (name_make_any (cap - 17) name) as (r&->&B). cbn [bind]. destruct r as [b|]; [|apply within_none]. specialize (B b eq_refl).
  rewrite put_ok by lia. cbn [bind]. apply within_put. rewrite !nlen_app, !nlen_be_bytes. lia.
Qed.
Lemma discovery_answer_within cap record : within cap (discovery_answer cap record).
Proof.
  unfold discovery_answer. change (nlen services_query) with 46. destruct (N.ltb_spec cap (46 + 32 + nlen record)) as [L|L]; [apply within_none|].
  assert (Hd : nlen (patch16 6 1 (patch16 2 33792 services_query)) = 46) by reflexivity.
  rewrite put_ok by (rewrite Hd; change (nlen (@nil N)) with 0; lia). cbn [bind app]. set (o1 := patch16 6 1 _) in *. clearbody o1.
  rewrite put_ok by (rewrite nlen_app, nlen_rr_head, nlen_be_bytes; lia). cbn [bind]. set (o2 := o1 ++ _). assert (L2 : nlen o2 = 58) by (unfold o2; rewrite !nlen_app, nlen_rr_head, nlen_be_bytes; lia). clearbody o2.
  destruct (name_make_enough (cap - (46 + 10)) record ltac:(lia)) as (b&->&B). cbn [bind].
  rewrite put_ok by (rewrite nlen_patch; lia). cbn [bind]. apply within_put. rewrite nlen_app, nlen_patch by lia. change (nlen [0]) with 1. lia.
Qed.
Lemma query_answer_within cap unicast qid service host ip4 ip6 port txt : nlen ip4 = 4 -> (nlen ip6 = 0 \/ nlen ip6 = 16) ->
  2 * nlen host + nlen service + 60 <= cap -> within cap (query_answer cap unicast qid service host ip4 ip6 port txt).
Proof.
  intros L4 L6 Cap. unfold query_answer. destruct (N.ltb_spec cap (12 + 32 + nlen service + nlen host)) as [L|L]; [apply within_none|]. cbv zeta.
  set (hd := be_bytes 2 (if unicast then qid else 0) ++ _). assert (Hd : nlen hd = 12) by (unfold hd; rewrite !nlen_app, !nlen_be_bytes; reflexivity).
  rewrite put_ok by (rewrite Hd; change (nlen (@nil N)) with 0; lia). cbn [bind app].
  match goal with |- within cap (do o <- ?e; match o with None => _ | Some _ => _ end) =>
    assert (A : exists o, e = Ok o /\ forall x, o = Some x -> nlen (fst x) <= cap /\ nlen (fst x) <= nlen service + 20) end.
  { destruct (within_put_name cap hd service ltac:(lia)) as (o&E&B). pose proof (put_name_len cap hd service) as PL. rewrite E in *. cbn [bind].
    destruct unicast; (destruct o as [o|]; [|exists None; split; [reflexivity|discriminate]]); specialize (B o eq_refl); specialize (PL o eq_refl).
    - unfold need. destruct (N.leb_spec (cap - nlen o) 4) as [Q|Q]; cbn [bind]; [exists None; split; [reflexivity|discriminate]|].
      rewrite put_ok by (rewrite nlen_app, !nlen_be_bytes; lia). cbn [bind]. set (o' := o ++ _). assert (LO : nlen o' = nlen o + 4) by (unfold o'; rewrite !nlen_app, !nlen_be_bytes; lia).
      destruct (within_put_ref cap o' 12 ltac:(lia)) as (o2&E2&B2). pose proof (put_ref_len cap o' 12) as PL2. rewrite E2 in *. cbn [bind].
      destruct o2 as [o2|]; [|exists None; split; [reflexivity|discriminate]]. specialize (B2 o2 eq_refl). specialize (PL2 o2 eq_refl). eexists. split; [reflexivity|]. intros x Hx. injection Hx as <-. cbn [fst]. lia.
    - eexists. split; [reflexivity|]. intros x Hx. injection Hx as <-. cbn [fst]. lia. }
  destruct A as (r&E&B). rewrite E. clear E. cbn [bind]. destruct r as [[o1 lo]|]; [|apply within_none]. specialize (B _ eq_refl). cbn [fst] in B.
  set (c := if unicast then 32769 else 1). set (t := if unicast then 10 else 60). clearbody c t.
  apply within_need. intros N1. rewrite put_ok by (rewrite nlen_rr_head; lia). cbn [bind]. set (o2 := o1 ++ _). assert (L2 : nlen o2 = nlen o1 + 10) by (unfold o2; rewrite nlen_app, nlen_rr_head; reflexivity). clearbody o2.
  destruct (put_with_ref_room cap o2 host 12 ltac:(lia)) as (r&E&B3). rewrite E. clear E. cbn [bind]. destruct r as [o3|]; [|apply within_none]. specialize (B3 o3 eq_refl).
  apply within_need. intros N3. set (o4 := patch16 _ _ o3). assert (L4' : nlen o4 = nlen o3) by (unfold o4; apply nlen_patch; lia). clearbody o4.
  apply within_bind; [apply within_put_ref; lia|]. intros o5 B5 E5. apply put_ref_len in E5.
  apply within_need. intros N5. set (sh := be_bytes 2 0 ++ be_bytes 2 0 ++ be_bytes 2 port). assert (Lsh : nlen sh = 6) by reflexivity.
  rewrite put_ok by (rewrite nlen_app, nlen_rr_head, Lsh; lia). cbn [bind]. set (o6 := o5 ++ _). assert (L6' : nlen o6 = nlen o5 + 16) by (unfold o6; rewrite !nlen_app, nlen_rr_head, Lsh; lia). clearbody o6.
  destruct (put_with_ref_room cap o6 host lo ltac:(lia)) as (r&E&B7). rewrite E. clear E. cbn [bind]. destruct r as [o7|]; [|apply within_none]. specialize (B7 o7 eq_refl).
  apply within_need. intros N7. set (o8 := patch16 _ _ o7). assert (L8 : nlen o8 = nlen o7) by (unfold o8; apply nlen_patch; lia). clearbody o8.
  assert (Blk : forall (use : bool) head off n o f, nlen head <= n -> nlen o <= cap ->
    (forall o', nlen o' <= cap -> within cap (f o')) ->
    within cap (do o <- (if use then do o0 <- put_ref cap o off; match o0 with None => Ok None | Some o1 => do o2 <- need cap n o1; match o2 with None => Ok None | Some _ => put cap o1 head end end else Ok (Some o));
                match o with None => Ok None | Some o' => f o' end)).
  { intros use head off n o f Hl Lo K. destruct use; [|cbn [bind]; apply K; exact Lo]. apply within_bind; [|intros b Lb _; apply K; exact Lb].
    apply within_bind; [apply within_put_ref; exact Lo|]. intros o1' B1 _. apply within_need. intros N1'. apply within_put. lia. }
  apply Blk; [rewrite nlen_app, nlen_rr_head; lia|lia|]. intros o9 B9.
  destruct (0 <? nlen ip6) eqn:E6.
  - apply (Blk true); [rewrite nlen_app, nlen_rr_head; lia|lia|]. intros o10 B10. destruct (_ && _) eqn:ET; [|exists (Some o10); split; [reflexivity|]; intros x Hx; injection Hx as <-; exact B10].
    apply within_bind; [apply within_put_ref; lia|]. intros o11 B11 _. apply within_need. intros N11. apply within_put. rewrite nlen_app, nlen_rr_head. lia.
  - cbn [bind]. destruct (_ && _) eqn:ET; [|exists (Some o9); split; [reflexivity|]; intros x Hx; injection Hx as <-; exact B9].
    apply within_bind; [apply within_put_ref; lia|]. intros o11 B11 _. apply within_need. intros N11. apply within_put. rewrite nlen_app, nlen_rr_head. lia.
Qed.
