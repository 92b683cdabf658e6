(** Lemmas about MdnsModel: questions, merging of the collected records. *)
From Coq Require Import String List NArith ZArith Lia Bool Arith.
From Coq Require Import ZifyN ZifyNat ZifyBool.
From Verif Require Import Bytes BytesProofs Txt NumModel JsonModel JsonProofs ServiceModel ServiceProofs XmlRef MdnsModel MdnsSpec MdnsProofs MdnsWrite MdnsMessages MdnsAnswer MdnsFound MdnsEnds.
Import ListNotations.
Open Scope N_scope.
Ltac Zify.zify_post_hook ::= idtac.

(** ** Questions *)
Definition question (qid t c : N) (ls : list (list N)) : list N := header qid 0 1 0 0 0 ++ question_bytes (wire ls) t c.
Lemma nlen_question qid t c ls : nlen (question qid t c ls) = 16 + nlen (wire ls).
Proof. unfold question, question_bytes. rewrite !nlen_app, !nlen_be_bytes, nlen_header. lia. Qed.
Lemma query_send_ok cap t name qid multi ls : names name ls -> nlen name < nlen (wire ls) + 1 -> 17 + nlen (wire ls) <= cap ->
  query_send cap t name qid multi = Ok (Some (question qid t (if multi then 1 else 32769) ls)).
Proof.
  intros Nm Ln L. unfold query_send. rewrite (proj2 (N.ltb_ge _ _)) by lia.
  set (hd := be_bytes 2 qid ++ _). assert (Hd : nlen hd = 12) by reflexivity. rewrite put_ok by (rewrite Hd; change (nlen (@nil N)) with 0; lia). cbn [bind app].
  rewrite (make_names _ _ _ Nm). unfold fits. rewrite (proj2 (N.leb_le _ _)) by lia. cbn [bind app]. rewrite put_ok by lia. cbn [bind].
  rewrite put_ok by (rewrite !nlen_app, !nlen_be_bytes; lia). unfold question, question_bytes, hd, header. rewrite <- !app_assoc. reflexivity.
Qed.
Definition services_labels : list (list N) := [T"_services"; T"_dns-sd"; T"_udp"; T"local"].
Lemma services_spelled : spelled false services_query (nlen services_query) 12 services_labels 42.
Proof.
  change services_query with ([0; 0; 0; 0; 0; 1; 0; 0; 0; 0; 0; 0] ++ wire services_labels ++ [0; 12; 128; 1]).
  apply (spelled_wire false [0; 0; 0; 0; 0; 1; 0; 0; 0; 0; 0; 0] services_labels [0; 12; 128; 1]); [|vm_compute; discriminate].
  repeat constructor; try (vm_compute; discriminate); vm_compute; intuition discriminate.
Qed.
Lemma is_services_spelled m size off ls e : spelled false m size off ls e ->
  (same_labels ls services_labels /\ is_services m size off = Ok (Some e)) \/ (~ same_labels ls services_labels /\ is_services m size off = Ok None).
Proof.
  intros Sp. unfold is_services.
  destruct (equal_spelled m size services_query (nlen services_query) ls services_labels off e 12 42 None None Sp services_spelled) with (fuel := 6%nat) as [[A ->]|[A ->]].
  - repeat constructor; vm_compute; intuition discriminate.
  - right. vm_compute. lia.
  - left. split; [exact A|reflexivity].
  - right. split; [exact A|reflexivity].
Qed.
Lemma listen_question fuel a qid c ls rest : Forall label ls -> (List.length ls < fuel)%nat -> qid < 65536 -> (c = 1 \/ c = 32769) -> ls <> [] ->
  ~ same_labels ls services_labels -> text_of ls <> dns_sd ->
  listen fuel a (question qid 12 c ls ++ rest) (nlen (question qid 12 c ls)) =
  if str_eqb (text_of ls) (aService a) then
    do o <- query_answer 512 (c =? 32769) qid (aService a) (aHost a) (aIP4 a) (aIP6 a) (aPort a) (aTxt a);
    match o with None => Ok [] | Some b => Ok [(c =? 32769, b)] end
  else Ok [].
Proof.
  intros F Fu Q C Ne NS ND. set (m := question qid 12 c ls ++ rest). set (size := nlen (question qid 12 c ls)).
  assert (Sz : size = 16 + nlen (wire ls)) by apply nlen_question.
  assert (M : m = header qid 0 1 0 0 0 ++ question_bytes (wire ls) 12 c ++ rest) by (unfold m, question; rewrite <- app_assoc; reflexivity).
  destruct (header_reads qid 0 1 0 0 0 (question_bytes (wire ls) 12 c ++ rest)) as (R0&R2&R4&_); try lia. rewrite <- M in R0, R2, R4.
  assert (M2 : m = header qid 0 1 0 0 0 ++ wire ls ++ be_bytes 2 12 ++ be_bytes 2 c ++ rest) by (rewrite M; unfold question_bytes; rewrite <- !app_assoc; reflexivity).
  assert (Sp : spelled false m size 12 ls (12 + nlen (wire ls))).
  { rewrite M2. apply (spelled_wire false (header qid 0 1 0 0 0) ls _ size F). rewrite nlen_header. lia. }
  unfold listen. rewrite R0. cbn [bind]. unfold socket_listen. rewrite R0, R2, R4. cbn [bind]. change (N.to_nat 1) with 1%nat. cbn [listen_questions].
  destruct (is_services_spelled m size 12 ls _ Sp) as [[A _]|[_ ->]]; [contradiction|]. cbn [bind].
  rewrite (name_skip_spelled _ _ _ _ _ Sp). cbn [bind].
  replace (rd16 m (12 + nlen (wire ls))) with (Ok 12).
  2:{ rewrite M2, app_assoc. symmetry. apply (rd16_app _ 12); [lia|]. rewrite nlen_app, nlen_header. reflexivity. }
  cbn [bind]. replace (rd16 m (12 + nlen (wire ls) + 2)) with (Ok c).
  2:{ rewrite M2, app_assoc, app_assoc. symmetry. apply (rd16_app _ c); [lia|]. rewrite !nlen_app, nlen_header. reflexivity. }
  cbn [bind]. assert (C1 : negb (N.land c 32767 =? 1) = false) by (destruct C as [->| ->]; reflexivity). rewrite C1.
  assert (WL : 3 <= nlen (wire ls)).
  { destruct ls as [|l ls']; [contradiction|]. rewrite nlen_wire_cons. inversion_clear F as [|? ? [X _] _]. pose proof (nlen_wire ls'). lia. }
  unfold service_callback. cbn [kEntry kType kOff kLen kClass]. change (negb (0 =? 0)) with false. change (12 =? 12) with true. cbv iota.
  unfold parse_ptr. replace (12 + nlen (wire ls) - 12) with (nlen (wire ls)) by lia.
  rewrite (proj2 (N.leb_le (12 + nlen (wire ls)) size)) by lia. rewrite (proj2 (N.leb_le 2 (nlen (wire ls)))) by lia. cbn [andb].
  destruct (extract_text fuel m size 12 ls _ Sp Fu) as (x&X1&X2). rewrite X1. cbn [bind]. rewrite X2.
  replace (str_eqb (text_of ls) dns_sd) with false.
  2:{ symmetry. destruct (str_eqb (text_of ls) dns_sd) eqn:E; [|reflexivity]. apply str_eqb_iff in E. contradiction. }
  assert (U : negb (N.land c 32768 =? 0) = (c =? 32769)) by (destruct C as [->| ->]; reflexivity). rewrite U. cbv zeta.
  destruct (str_eqb (text_of ls) (aService a)); [|reflexivity].
  destruct (query_answer 512 _ _ _ _ _ _ _ _) as [[b|]| | |]; reflexivity.
Qed.

(** ** Merging *)
Lemma lex_irrefl x : lex_lt x x = false.
Proof. induction x as [|a x IH]; [reflexivity|]. cbn [lex_lt]. rewrite N.ltb_irrefl, N.eqb_refl, IH. reflexivity. Qed.
Lemma lex_trans : forall x y z, lex_lt x y = true -> lex_lt y z = true -> lex_lt x z = true.
Proof.
  induction x as [|a x IH]; intros [|b y] [|c z] H K; cbn [lex_lt] in *; try discriminate; try reflexivity.
  apply orb_true_iff in H. apply orb_true_iff in K. apply orb_true_iff.
  rewrite !andb_true_iff, !N.ltb_lt, !N.eqb_eq in *. destruct H as [H|[-> H]], K as [K|[-> K]]; try (left; lia).
  right. split; [reflexivity|]. apply (IH y); assumption.
Qed.
Lemma lex_total : forall x y, lex_lt x y = false -> lex_lt y x = false -> x = y.
Proof.
  induction x as [|a x IH]; intros [|b y] H K; cbn [lex_lt] in *; try discriminate; [reflexivity|].
  apply orb_false_iff in H. apply orb_false_iff in K. rewrite !N.ltb_ge in *. destruct H as [H1 H2], K as [K1 K2].
  assert (a = b) by lia. subst b. rewrite N.eqb_refl in *. cbn [andb] in *. f_equal. apply IH; assumption.
Qed.
Inductive sorted : list (list N) -> Prop :=
| sorted_nil : sorted []
| sorted_cons x l : Forall (fun y => lex_lt x y = true) l -> sorted l -> sorted (x :: l).
Lemma insert_in l x y : In y (set_insert l x) <-> y = x \/ In y l.
Proof.
  induction l as [|z l IH]; cbn [set_insert In]; [intuition congruence|]. destruct (lex_lt x z) eqn:E1; [cbn [In]; intuition congruence|]. destruct (lex_lt z x) eqn:E2.
  - cbn [In]. rewrite IH. intuition congruence.
  - pose proof (lex_total x z E1 E2). subst z. cbn [In]. intuition congruence.
Qed.
Lemma insert_sorted l x : sorted l -> sorted (set_insert l x).
Proof.
  induction 1 as [|z l F S IH]; cbn [set_insert]; [constructor; constructor|]. destruct (lex_lt x z) eqn:E1.
  - constructor; [|constructor; assumption]. constructor; [exact E1|]. eapply Forall_impl; [|exact F]. cbn. intros y Hy. exact (lex_trans _ _ _ E1 Hy).
  - destruct (lex_lt z x) eqn:E2; [|constructor; assumption]. constructor; [|exact IH]. apply Forall_forall. intros y Hy. apply insert_in in Hy as [->|Hy]; [exact E2|].
    rewrite Forall_forall in F. exact (F y Hy).
Qed.
Lemma sorted_ext : forall l k, sorted l -> sorted k -> (forall x, In x l <-> In x k) -> l = k.
Proof.
  induction l as [|x l IH]; intros [|y k] Sl Sk H.
  - reflexivity.
  - exfalso. apply (proj2 (H y)). left. reflexivity.
  - exfalso. apply (proj1 (H x)). left. reflexivity.
  - inversion_clear Sl as [|? ? Fl Sl']. inversion_clear Sk as [|? ? Fk Sk']. rewrite Forall_forall in Fl, Fk.
    assert (E : x = y).
    { destruct (proj1 (H x) (or_introl eq_refl)) as [E|E]; [congruence|]. destruct (proj2 (H y) (or_introl eq_refl)) as [E'|E']; [congruence|].
      pose proof (lex_trans _ _ _ (Fk x E) (Fl y E')) as C. rewrite lex_irrefl in C. discriminate C. }
    subst y. f_equal. apply IH; [assumption|assumption|]. intros z. split; intros Hz.
    + destruct (proj1 (H z) (or_intror Hz)) as [E|E]; [|exact E]. subst z. specialize (Fl x Hz). cbn in Fl. rewrite lex_irrefl in Fl. discriminate Fl.
    + destruct (proj2 (H z) (or_intror Hz)) as [E|E]; [|exact E]. subst z. specialize (Fk x Hz). cbn in Fk. rewrite lex_irrefl in Fk. discriminate Fk.
Qed.
Definition set_of (l : list (list N)) : list (list N) := fold_left set_insert l [].
Lemma set_sorted l : forall acc, sorted acc -> sorted (fold_left set_insert l acc).
Proof. induction l as [|x l IH]; intros acc H; cbn [fold_left]; [exact H|]. apply IH, insert_sorted, H. Qed.
Lemma set_in l : forall acc x, In x (fold_left set_insert l acc) <-> In x l \/ In x acc.
Proof. induction l as [|y l IH]; intros acc x; cbn [fold_left In]; [tauto|]. rewrite IH, insert_in. intuition congruence. Qed.
Lemma set_ext l k : (forall x, In x l <-> In x k) -> fold_left set_insert l [] = fold_left set_insert k [].
Proof. intros H. apply sorted_ext; [apply set_sorted; constructor|apply set_sorted; constructor|]. intros x. rewrite !set_in, H. tauto. Qed.

Definition join (c d : collected) : collected :=
  mkCollected (cSrv c ++ cSrv d) (cTxt c ++ cTxt d) (cA c ++ cA d) (cAaaa c ++ cAaaa d) (cPtr c ++ cPtr d).
(** The senders of the records. *)
Definition senders {D} (l : list (entry D)) : list (list N) := map (fun e => fst (fst e)) l.
Definition all_senders (c : collected) : list (list N) := senders (cSrv c) ++ senders (cTxt c) ++ senders (cA c) ++ senders (cAaaa c) ++ senders (cPtr c).
Lemma belongs_sender a n srv : belongs a n srv = true -> a = fst (fst srv).
Proof.
  destruct srv as [[sa sn] [p t]]. unfold belongs. destruct (str_eqb a sa) eqn:E; cbn [negb]; [|discriminate]. intros _. apply str_eqb_iff in E. exact E.
Qed.
Lemma mine_app srv l k : mine srv (l ++ k) = mine srv l ++ mine srv k.
Proof. unfold mine. rewrite filter_app, map_app. reflexivity. Qed.
Lemma mine_other srv l : ~ In (fst (fst srv)) (senders l) -> mine srv l = [].
Proof.
  unfold mine, senders. induction l as [|e l IH]; cbn [map In filter]; intros H; [reflexivity|].
  destruct (belongs (fst (fst e)) (snd (fst e)) srv) eqn:E; [apply belongs_sender in E; exfalso; apply H; left; exact E|]. apply IH. tauto.
Qed.
Lemma result_ext c d srv : mine srv (cPtr c) = mine srv (cPtr d) -> mine srv (cTxt c) = mine srv (cTxt d) -> mine srv (cA c) = mine srv (cA d) -> mine srv (cAaaa c) = mine srv (cAaaa d) ->
  result_of c srv = result_of d srv.
Proof. intros A B C D. destruct srv as [[sa sn] [p t]]. unfold result_of. rewrite A, B, C, D. reflexivity. Qed.
Lemma srv_eqb_eq x y : srv_eqb x y = true <-> x = y.
Proof.
  destruct x as [[a n] [p t]], y as [[a' n'] [p' t']]. unfold srv_eqb. rewrite !andb_true_iff, !str_eqb_iff, N.eqb_eq. split.
  - intros [[[-> ->] ->] ->]. reflexivity.
  - intros E. injection E as -> -> -> ->. tauto.
Qed.
Lemma results_ext c d : forall l before, (forall srv, In srv l -> result_of c srv = result_of d srv) -> results_loop c before l = results_loop d before l.
Proof.
  induction l as [|x l IH]; intros before H; cbn [results_loop]; [reflexivity|]. rewrite (IH _ (fun s Hs => H s (or_intror Hs))), (H x (or_introl eq_refl)). reflexivity.
Qed.
Lemma results_before c : forall l b b', (forall x, In x l -> existsb (srv_eqb x) b = existsb (srv_eqb x) b') -> results_loop c b l = results_loop c b' l.
Proof.
  induction l as [|x l IH]; intros b b' H; cbn [results_loop]; [reflexivity|]. rewrite (H x (or_introl eq_refl)).
  rewrite (IH (b ++ [x]) (b' ++ [x])); [reflexivity|]. intros y Hy. rewrite !existsb_app, (H y (or_intror Hy)). reflexivity.
Qed.
Lemma results_app c : forall l k before, results_loop c before (l ++ k) = results_loop c before l ++ results_loop c (before ++ l) k.
Proof.
  induction l as [|x l IH]; intros k before; cbn [app results_loop]; [rewrite app_nil_r; reflexivity|]. rewrite IH, <- app_assoc. cbn [app]. destruct (existsb _ _); reflexivity.
Qed.
Lemma in_senders {D} (e : entry D) l : In e l -> In (fst (fst e)) (senders l).
Proof. intros H. unfold senders. apply in_map_iff. exists e. split; [reflexivity|exact H]. Qed.
Lemma results_join c d : (forall a, In a (all_senders c) -> ~ In a (all_senders d)) -> results (join c d) = results c ++ results d.
Proof.
  intros H. unfold results. cbn [join cSrv]. rewrite results_app. f_equal.
  - apply results_ext. intros srv Hs. assert (A : In (fst (fst srv)) (all_senders c)) by (unfold all_senders; rewrite !in_app_iff; left; apply in_senders; exact Hs).
    specialize (H _ A). unfold all_senders in H. rewrite !in_app_iff in H.
    apply result_ext; cbn [join cPtr cTxt cA cAaaa]; rewrite mine_app; [rewrite (mine_other srv (cPtr d)) by tauto|rewrite (mine_other srv (cTxt d)) by tauto|rewrite (mine_other srv (cA d)) by tauto|rewrite (mine_other srv (cAaaa d)) by tauto]; apply app_nil_r.
  - assert (B : results_loop (join c d) ([] ++ cSrv c) (cSrv d) = results_loop (join c d) [] (cSrv d)).
    { apply results_before. intros x Hx. cbn [app existsb]. apply not_true_is_false. intros E. apply existsb_exists in E as (y&Hy&E). apply srv_eqb_eq in E. subst y.
      apply (H (fst (fst x))); unfold all_senders; rewrite !in_app_iff; left; apply in_senders; assumption. }
    rewrite B. apply results_ext. intros srv Hs. assert (A : In (fst (fst srv)) (all_senders d)) by (unfold all_senders; rewrite !in_app_iff; left; apply in_senders; exact Hs).
    assert (NC : ~ In (fst (fst srv)) (all_senders c)) by (intros C; exact (H _ C A)). unfold all_senders in NC. rewrite !in_app_iff in NC.
    apply result_ext; cbn [join cPtr cTxt cA cAaaa]; rewrite mine_app; [rewrite (mine_other srv (cPtr c)) by tauto|rewrite (mine_other srv (cTxt c)) by tauto|rewrite (mine_other srv (cA c)) by tauto|rewrite (mine_other srv (cAaaa c)) by tauto]; reflexivity.
Qed.
(** Everything received twice. *)
Lemma hd_twice {A} (d : A) l : hd d (l ++ l) = hd d l.
Proof. destruct l; reflexivity. Qed.
Lemma results_seen c : forall l before, (forall x, In x l -> In x before) -> results_loop c before l = [].
Proof.
  induction l as [|x l IH]; intros before H; cbn [results_loop]; [reflexivity|].
  replace (existsb (srv_eqb x) before) with true; [apply IH; intros y Hy; rewrite in_app_iff; left; apply H; right; exact Hy|].
  symmetry. apply existsb_exists. exists x. split; [apply H; left; reflexivity|apply srv_eqb_eq; reflexivity].
Qed.
Lemma results_twice c : results (join c c) = results c.
Proof.
  unfold results. cbn [join cSrv]. rewrite results_app. cbn [app]. rewrite (results_seen (join c c) (cSrv c) (cSrv c)) by (intros x Hx; exact Hx). rewrite app_nil_r. apply results_ext. intros [[sa sn] [p t]] _.
  unfold result_of. cbn [join cPtr cTxt cA cAaaa]. rewrite !mine_app, !hd_twice.
  rewrite (set_ext (mine (sa, sn, (p, t)) (cA c) ++ mine (sa, sn, (p, t)) (cA c)) (mine (sa, sn, (p, t)) (cA c))) by (intros x; rewrite in_app_iff; tauto).
  rewrite (set_ext (mine (sa, sn, (p, t)) (cAaaa c) ++ mine (sa, sn, (p, t)) (cAaaa c)) (mine (sa, sn, (p, t)) (cAaaa c))) by (intros x; rewrite in_app_iff; tauto).
  reflexivity.
Qed.
(** One station. *)
Lemma starts_app p s : starts_with p (p ++ s) = true.
Proof. induction p as [|x p IH]; cbn [starts_with app]; [reflexivity|]. rewrite N.eqb_refl, IH. reflexivity. Qed.
Lemma dotted_app a b : dotted (a ++ b) = dotted a ++ dotted b.
Proof. unfold dotted. apply flat_map_app. Qed.
Lemma text_short ls : nlen (dotted ls) <= 256 -> text_of ls = dotted ls.
Proof. intros H. unfold text_of. apply firstn_all2. unfold nlen in H. lia. Qed.
Lemma belongs_full from f p t : belongs from f (from, f, (p, t)) = true.
Proof. unfold belongs. rewrite !str_eqb_refl. reflexivity. Qed.
Lemma belongs_target from n p t : belongs from t (from, n, (p, t)) = true.
Proof. unfold belongs. rewrite !str_eqb_refl. cbn [negb]. rewrite orb_true_r. reflexivity. Qed.
Lemma belongs_suffix from a b p t : belongs from b (from, a ++ b, (p, t)) = true.
Proof.
  unfold belongs. rewrite str_eqb_refl. cbn [negb]. unfold ends_with. rewrite rev_app_distr, starts_app. rewrite (proj2 (N.leb_le (nlen b) (nlen (a ++ b)))) by (rewrite nlen_app; lia).
  cbn [andb]. rewrite !orb_true_r. reflexivity.
Qed.
Lemma results_station ip4_text ip6_text from svc' h : nlen (dotted (full svc' h)) <= 256 ->
  results (found_in ip4_text ip6_text from svc' h nothing) =
  [mkQuery (dotted (full svc' h)) (dotted (full svc' h)) (if sent_txt (sTxt h) then sTxt h else []) (sPort h)
     (if some_byte (sIP4 h) then [ip4_text (sIP4 h)] else []) (if 0 <? nlen (sIP6 h) then [ip6_text (sIP6 h)] else [])].
Proof.
  intros L. unfold results, found_in, nothing. cbn [cSrv cTxt cA cAaaa cPtr app results_loop existsb].
  assert (E1 : text_of (full svc' h) = dotted (full svc' h)) by (apply text_short; exact L).
  assert (E2 : text_of (svc svc') = dotted (svc svc')).
  { apply text_short. unfold full in L. rewrite dotted_app, nlen_app in L. lia. }
  rewrite E1, E2. unfold result_of. set (srv := (from, dotted (full svc' h), (sPort h, text_of (host_name h)))).
  cbn [cPtr cTxt cA cAaaa].
  assert (P : belongs from (dotted (svc svc')) srv = true) by (unfold srv, full; rewrite dotted_app; apply belongs_suffix).
  assert (X : belongs from (dotted (full svc' h)) srv = true) by apply belongs_full.
  assert (Y : belongs from (text_of (host_name h)) srv = true) by apply belongs_target.
  unfold mine. cbn [filter fst snd map hd]. rewrite P. cbn [map hd snd].
  destruct (sent_txt (sTxt h)), (some_byte (sIP4 h)), (0 <? nlen (sIP6 h)); cbn [filter fst snd map hd]; rewrite ?X, ?Y; reflexivity.
Qed.
