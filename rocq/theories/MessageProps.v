(** C06, C07, C08: MVR-xchange messages. *)
From Coq Require Import List NArith ZArith String Lia Bool Sorting.
From Coq Require Import ZifyN ZifyNat ZifyBool.
From Verif Require Import Bytes BytesProofs Txt NumModel NumProofs UtfSpec UtfModel UtfProofs UuidModel UuidProps ConvModel ConvProps ConvProps3.
From Verif Require Import JsonModel JsonProofs JsonParse JsonProps MessageModel MessageProofs.
Import ListNotations.
Open Scope N_scope.
Ltac Zify.zify_post_hook ::= Z.div_mod_to_equations.

(** ** C06: round trip *)
(** What a message of its type transmits: texts are UTF-8 without zero bytes that fit the fields, numbers and
    identifier words are in range; a successful file reply carries at least one byte. *)
Definition join_ok (j : join) : Prop :=
  text_ok (jProvider j) /\ text_ok (jName j) /\ words_ok (jStation j) /\ jMajor j < 2 ^ 32 /\ jMinor j < 2 ^ 32 /\ Forall commit_ok (jCommits j).
Definition file_data (files : list N -> list N) (m : msg) : list N := match mBuffer m with Some b => b | None => files (mPath m) end.
Definition sendable (files : list N -> list N) (m : msg) : Prop :=
  match mType m with
  | MJoin => join_ok (mJoin m)
  | MJoinRet => join_ok (mJoin m) /\ text_ok (mError m)
  | MLeave => words_ok (mLeave m)
  | MCommit => commit_ok (mCommit m)
  | MRequest => words_ok (rFile (mRequest m)) /\ Forall words_ok (rFrom (mRequest m))
  | MLeaveRet | MCommitRet => text_ok (mError m)
  | MRequestRet => if mOk m then file_data files m <> [] else text_ok (mError m)
  | MUndefined | MNewSessionHost => False
  end.
(** The transmitted fields come from the sent message, all others keep the receiver's value. *)
Definition has_join (t : mtype) : bool := match t with MJoin | MJoinRet => true | _ => false end.
Definition has_status (m : msg) : bool := match mType m with MJoinRet | MLeaveRet | MCommitRet => true | MRequestRet => negb (mOk m) | _ => false end.
Definition received (files : list N -> list N) (m old : msg) : msg :=
  mkMsg (mType m)
    (if has_join (mType m) then mJoin m else mJoin old)
    (match mType m with MCommit => mCommit m | _ => mCommit old end)
    (match mType m with MRequest => mRequest m | _ => mRequest old end)
    (match mType m with MLeave => mLeave m | _ => mLeave old end)
    (mPath old)
    (match mType m, mOk m with MRequestRet, true => Some (file_data files m) | _, _ => mBuffer old end)
    (if has_status m then mOk m else mOk old)
    (if has_status m then mError m else mError old).

Lemma dump_obj_ne o t : dump (JObj o) = DText t -> nlen t <> 0.
Proof.
  cbn [dump]. destruct o as [|[k v] o]; [intros [= <-]; discriminate|].
  match goal with |- dapp (DText ?a) ?r = _ -> _ => destruct r; [|discriminate|discriminate] end.
  cbn [dapp]. intros [= <-]. cbn [app]. rewrite nlen_cons. lia.
Qed.
Lemma send_json files m o t s : payload m = JObj o -> jwf (JObj o) -> obj_get o (T"Type") = Some (JStr s) ->
  (mType m = MRequestRet -> mOk m = false) -> dump (JObj o) = DText t -> from_external files m = EOk (JSON_TYPE, t).
Proof.
  intros E W Ty H D. unfold from_external. rewrite E, Ty. cbn [ebind get_str]. rewrite D.
  destruct (mType m); try reflexivity. now rewrite H.
Qed.
Lemma at_key_obj o k v : at_key (JObj o) k = EOk v -> obj_get o k = Some v.
Proof. cbn [at_key]. now destruct (obj_get o k); intros [= ->]. Qed.
(** The common part: a payload that is a well-formed object with a text under Type. *)
Lemma via_json files m o s m' old : payload m = JObj o -> jwf (JObj o) -> at_key (JObj o) (T"Type") = EOk (JStr s) ->
  (mType m = MRequestRet -> mOk m = false) ->
  internal true s (JObj o) (set_type MUndefined old) = ORet m' ->
  exists b, from_external files m = EOk (JSON_TYPE, b) /\ to_external true JSON_TYPE b old = ORet m'.
Proof.
  intros E W Ty H I. destruct (C68_round_trip _ W) as (t & D & P). exists t. apply at_key_obj in Ty.
  split; [eapply send_json; eassumption|]. unfold to_external. rewrite P, Ty. cbn [get_str step]. rewrite I.
  replace (nlen t =? 0) with false by (pose proof (dump_obj_ne _ _ D); lia). reflexivity.
Qed.
Ltac mrec := cbn [step ebind fst snd elements uuid_check set_type set_join set_commit set_request set_leave set_buffer set_ret
  mType mJoin mCommit mRequest mLeave mPath mBuffer mOk mError jProvider jName jStation jMajor jMinor jCommits rFile rFrom]; cbv zeta.
Lemma string_number_back n : n < 2 ^ 32 -> string_number (JUns n) = EOk n.
Proof. intros H. unfold string_number. cbn [is_number]. now apply uns_back. Qed.
Definition join_keys (o : json) (j : join) : Prop :=
  at_key o (T"Commits") = EOk (JArr (map commit_to_json (jCommits j))) /\ at_key o (T"Provider") = EOk (JStr (jProvider j))
  /\ at_key o (T"StationName") = EOk (JStr (jName j)) /\ at_key o (T"StationUUID") = EOk (words_text (jStation j))
  /\ at_key o (T"verMajor") = EOk (JUns (jMajor j)) /\ at_key o (T"verMinor") = EOk (JUns (jMinor j)).
Ltac join_read := unfold read_join; mrec; rewrite string_number_back by assumption; mrec; rewrite string_number_back by assumption; mrec;
  rewrite get_text_back by assumption; mrec; rewrite get_text_back by assumption; mrec; rewrite get_uuid_back by assumption; mrec.
Lemma join_back o j m : join_ok j -> join_keys o j -> read_join true false o m = ORet (set_join j m).
Proof.
  intros (H1 & H2 & H3 & H4 & H5 & H6) (K1 & K2 & K3 & K4 & K5 & K6). unfold read_join. rewrite K1, K2, K3, K4, K5, K6.
  join_read. rewrite commits_back by assumption. mrec. now destruct j.
Qed.
Lemma joinret_back o j m b e : join_ok j -> join_keys o j -> at_key o (T"OK") = EOk (JBool b) -> at_key o (T"Message") = EOk (JStr e) -> text_ok e ->
  read_join true true o m = ORet (set_join j (set_ret b e m)).
Proof.
  intros (H1 & H2 & H3 & H4 & H5 & H6) (K1 & K2 & K3 & K4 & K5 & K6) K7 K8 H7. unfold read_join. rewrite K1, K2, K3, K4, K5, K6.
  join_read. rewrite (ret_back o _ b e _ K7 K8 H7). mrec. rewrite commits_back by assumption. mrec. now destruct j.
Qed.
Lemma join_wf_parts j : join_ok j -> jwf (JArr (map commit_to_json (jCommits j))) /\ jwf (JStr (jProvider j)) /\ jwf (JStr (jName j))
  /\ jwf (words_text (jStation j)) /\ jwf (JUns (jMajor j)) /\ jwf (JUns (jMinor j)).
Proof.
  intros ((H1 & _) & (H2 & _) & H3 & H4 & H5 & H6). split.
  - apply jwf_arr, Forall_map. eapply Forall_impl; [|exact H6]. apply commit_json_wf.
  - cbn [jwf]. split; [exact H1|]. split; [exact H2|]. split; [now apply words_text_wf|]. lia.
Qed.

(** Decide comparisons of literal texts. *)
Ltac sel := repeat match goal with |- context [str_eqb (txt ?a) (txt ?b)] => let r := eval vm_compute in (str_eqb (txt a) (txt b)) in
  change (str_eqb (txt a) (txt b)) with r; cbv iota end.
(** Every sendable message arrives: the transmitted fields are equal, whatever the receiving message held before. *)
Theorem C06_round_trip : forall files m old, sendable files m ->
  exists ft b, from_external files m = EOk (ft, b) /\ to_external true ft b old = ORet (received files m old).
Proof.
  intros files m old H. unfold sendable in H. unfold received, has_status.
  assert (X : mType m = MRequestRet -> mOk m = true -> exists ft b, from_external files m = EOk (ft, b) /\
     to_external true ft b old = ORet (set_buffer (file_data files m) (set_type MRequestRet old))).
  { intros E1 E2. rewrite E1, E2 in H. exists BUFFER_TYPE, (file_data files m). split.
    - unfold from_external, payload. rewrite E1, E2. 
      replace (obj_get (set_all [] (ret_fields (T"MVR_REQUEST_RET") m)) (T"Type")) with (Some (JStr (T"MVR_REQUEST_RET"))) by reflexivity. cbn [ebind get_str].
      unfold file_data. now destruct (mBuffer m).
    - unfold to_external. replace (nlen (file_data files m) =? 0) with false; [reflexivity|].
      destruct (file_data files m); [congruence|]. rewrite nlen_cons. lia. }
  assert (J : forall m', (exists b, from_external files m = EOk (JSON_TYPE, b) /\ to_external true JSON_TYPE b old = ORet m') ->
     exists ft b, from_external files m = EOk (ft, b) /\ to_external true ft b old = ORet m') by (intros m' (b & Hb); exists JSON_TYPE, b; exact Hb).
  destruct (mType m) eqn:E; try contradiction.
  - destruct (join_wf_parts _ H) as (W1 & W2 & W3 & W4 & W5 & W6). apply J.
    pose proof (join_obj_eq (JStr (T"MVR_JOIN")) (JStr (jProvider (mJoin m))) (JStr (jName (mJoin m))) (words_text (jStation (mJoin m)))
      (JUns (jMajor (mJoin m))) (JUns (jMinor (mJoin m))) (JArr (map commit_to_json (jCommits (mJoin m))))) as EQ.
    match type of EQ with _ = ?o => assert (K : join_keys o (mJoin m)) by (repeat (split; [reflexivity|]); reflexivity) end.
    eapply via_json with (s := T"MVR_JOIN"); [unfold payload; rewrite E; exact EQ| |reflexivity|congruence|].
    + apply join_obj_wf. repeat (apply Forall_cons; try assumption); [|apply Forall_nil]. apply key_wf. reflexivity.
    + unfold internal. sel.
      rewrite (join_back _ _ _ H K). reflexivity.
  - apply J. pose proof (leave_obj_eq (JStr (T"MVR_LEAVE")) (words_text (mLeave m))) as EQ.
    eapply via_json with (s := T"MVR_LEAVE"); [unfold payload; rewrite E; exact EQ| |reflexivity|congruence|].
    + apply leave_obj_wf. apply Forall_cons; [now apply words_text_wf|]. apply Forall_cons; [|apply Forall_nil]. apply key_wf. reflexivity.
    + change (internal true (T"MVR_LEAVE")) with (internal true (T"MVR_LEAVE")). unfold internal. sel.
      fold (leave_obj (JStr (T"MVR_LEAVE")) (words_text (mLeave m))).
      destruct (leave_obj_keys (JStr (T"MVR_LEAVE")) (words_text (mLeave m))) as (K1 & _). rewrite K1. cbn [ebind].
      rewrite get_uuid_back by assumption. reflexivity.
  - apply J. unfold commit_to_json in *.
    pose proof (commit_json_wf _ H) as W. pose proof (commit_back _ (mCommit old) H) as B. unfold commit_to_json in W, B. rewrite commit_obj_eq in W, B.
    eapply via_json with (s := T"MVR_COMMIT"); [unfold payload; rewrite E; unfold commit_to_json; rewrite commit_obj_eq; reflexivity|exact W|reflexivity|congruence|].
    unfold internal. sel. mrec. unfold commit_obj in B. rewrite B. reflexivity.
  - destruct H as [H1 H2]. apply J. pose proof (request_obj_eq (JStr (T"MVR_REQUEST")) (words_text (rFile (mRequest m))) (JArr (map words_text (rFrom (mRequest m))))) as EQ.
    eapply via_json with (s := T"MVR_REQUEST"); [unfold payload; rewrite E; exact EQ| |reflexivity|congruence|].
    + apply request_obj_wf. apply Forall_cons; [now apply words_text_wf|]. apply Forall_cons; [|apply Forall_cons; [|apply Forall_nil]].
      * apply jwf_arr, Forall_map. eapply Forall_impl; [|exact H2]. apply words_text_wf.
      * apply key_wf. reflexivity.
    + unfold internal. sel.
      destruct (request_obj_keys (JStr (T"MVR_REQUEST")) (words_text (rFile (mRequest m))) (JArr (map words_text (rFrom (mRequest m))))) as (K1 & K2 & _).
      unfold request_obj in K1, K2. rewrite K1, K2. mrec.
      rewrite get_uuid_back by assumption. mrec. rewrite stations_back by assumption. mrec. destruct (mRequest m); reflexivity.
  - destruct H as [H H']. destruct (join_wf_parts _ H) as (W1 & W2 & W3 & W4 & W5 & W6). apply J.
    pose proof (joinret_obj_eq (JStr (T"MVR_JOIN_RET")) (JStr (jProvider (mJoin m))) (JStr (jName (mJoin m))) (words_text (jStation (mJoin m)))
      (JUns (jMajor (mJoin m))) (JUns (jMinor (mJoin m))) (JArr (map commit_to_json (jCommits (mJoin m)))) (JBool (mOk m)) (JStr (mError m))) as EQ.
    match type of EQ with _ = ?o => assert (K : join_keys o (mJoin m) /\ at_key o (T"OK") = EOk (JBool (mOk m)) /\ at_key o (T"Message") = EOk (JStr (mError m)))
      by (split; [repeat (split; [reflexivity|]); reflexivity|split; reflexivity]) end. destruct K as (K & K1 & K2).
    eapply via_json with (s := T"MVR_JOIN_RET"); [unfold payload; rewrite E; exact EQ| |reflexivity|congruence|].
    + apply joinret_obj_wf. destruct H' as [H' _]. repeat (apply Forall_cons; [assumption || exact I || (apply key_wf; reflexivity)|]). apply Forall_nil.
    + unfold internal. sel. rewrite (joinret_back _ _ _ _ _ H K K1 K2 H'). reflexivity.
  - apply J. pose proof (ret_obj_eq (JStr (T"MVR_LEAVE_RET")) (JBool (mOk m)) (JStr (mError m))) as EQ.
    eapply via_json with (s := T"MVR_LEAVE_RET"); [unfold payload; rewrite E; exact EQ| |reflexivity|congruence|].
    + apply ret_obj_wf. destruct H as [H _]. repeat (apply Forall_cons; [assumption || exact I || (apply key_wf; reflexivity)|]). apply Forall_nil.
    + unfold internal. sel. rewrite (ret_back _ _ (mOk m) (mError m)); [reflexivity|reflexivity|reflexivity|exact H].
  - apply J. pose proof (ret_obj_eq (JStr (T"MVR_COMMIT_RET")) (JBool (mOk m)) (JStr (mError m))) as EQ.
    eapply via_json with (s := T"MVR_COMMIT_RET"); [unfold payload; rewrite E; exact EQ| |reflexivity|congruence|].
    + apply ret_obj_wf. destruct H as [H _]. repeat (apply Forall_cons; [assumption || exact I || (apply key_wf; reflexivity)|]). apply Forall_nil.
    + unfold internal. sel. rewrite (ret_back _ _ (mOk m) (mError m)); [reflexivity|reflexivity|reflexivity|exact H].
  - destruct (mOk m) eqn:Eok.
    + destruct (X eq_refl eq_refl) as (ft & b & X1 & X2). exists ft, b. split; [exact X1|]. rewrite X2. reflexivity.
    + apply J. pose proof (ret_obj_eq (JStr (T"MVR_REQUEST_RET")) (JBool (mOk m)) (JStr (mError m))) as EQ.
      eapply via_json with (s := T"MVR_REQUEST_RET"); [unfold payload; rewrite E; exact EQ| |reflexivity|congruence|].
      * apply ret_obj_wf. destruct H as [H _]. repeat (apply Forall_cons; [assumption || exact I || (apply key_wf; reflexivity)|]). apply Forall_nil.
      * unfold internal. sel. rewrite (ret_back _ _ (mOk m) (mError m)); [rewrite Eok; reflexivity|reflexivity|reflexivity|exact H].
Qed.
Print Assumptions C06_round_trip.

(** A fresh message, IMediaRessourceVectorInterface.h:1957-1963: then the return status of a file reply is kept too. *)
Definition fresh : msg := mkMsg MUndefined (mkJoin [] [] no_words 0 0 []) empty_commit (mkRequest no_words []) no_words [] None true [].
Definition commit_ex : commit :=
  mkCommit (T"show.mvr") (T"r" ++ [195; 164]) 1 6 4294967296 (1, 2, 3, 4) (4294967295, 0, 0, 7) [(5, 6, 7, 8); (9, 9, 9, 9)].
Definition join_ex : msg := set_join (mkJoin (T"prov") (T"desk 1") (1, 2, 3, 4) 1 6 [commit_ex; commit_ex]) (set_type MJoin fresh).
Lemma commit_ex_ok : commit_ok commit_ex.
Proof.
  assert (W : forall a b c d, a < 2 ^ 32 -> b < 2 ^ 32 -> c < 2 ^ 32 -> d < 2 ^ 32 -> words_ok (a, b, c, d)) by (intros; repeat split; assumption).
  repeat split; try reflexivity; try (apply key_wf; reflexivity); try (intros H; repeat (destruct H as [H|H]; [discriminate H|]); exact H).
  - exists (T"r" ++ [228]). split; [|reflexivity]. apply Forall_forall. intros x H. repeat (destruct H as [<-|H]; [vm_compute; auto|]). destruct H.
  - apply Forall_cons; [apply W; reflexivity|]. apply Forall_cons; [apply W; reflexivity|]. apply Forall_nil.
Qed.
Example C06_case : (forall files, sendable files join_ex) /\
  match from_external (fun _ => []) join_ex with
  | EOk (ft, b) => to_external true ft b fresh = ORet (set_join (mJoin join_ex) (set_type MJoin fresh))
  | _ => False
  end.
Proof.
  split.
  - intros files. cbn. split; [|split; [|split; [|split; [reflexivity|split; [reflexivity|]]]]].
    + split; [apply key_wf; reflexivity|]. split; [|reflexivity]. intros H. repeat (destruct H as [H|H]; [discriminate H|]). exact H.
    + split; [apply key_wf; reflexivity|]. split; [|reflexivity]. intros H. repeat (destruct H as [H|H]; [discriminate H|]). exact H.
    + repeat split; reflexivity.
    + apply Forall_cons; [exact commit_ex_ok|]. apply Forall_cons; [exact commit_ex_ok|]. apply Forall_nil.
  - vm_compute. reflexivity.
Qed.
(** A fresh receiver also has the sender's return status. *)
Theorem C06_status : forall files m, sendable files m -> has_status m = true \/ mOk m = true -> mOk (received files m fresh) = mOk m.
Proof. intros files m _ H. unfold received. cbn [mOk fresh]. destruct (has_status m); [reflexivity|]. destruct H; congruence. Qed.
Print Assumptions C06_status.
(** A successful reply with an empty file arrives as a failed message of no type. *)
Theorem C06_empty_file_refuted : exists m ft b, mType m = MRequestRet /\ mOk m = true /\ mBuffer m = Some []
  /\ from_external (fun _ => []) m = EOk (ft, b)
  /\ to_external true ft b fresh = ORet (set_ret false (T"Parse Error: Empty Package") fresh).
Proof. exists (mkMsg MRequestRet (mJoin fresh) empty_commit (mRequest fresh) no_words [] (Some []) true []), 1, []. vm_compute. repeat split; reflexivity. Qed.
Print Assumptions C06_empty_file_refuted.
(** Messages without a type of the protocol cannot be sent: the log line throws. *)
Theorem C06_no_type_refuted : forall files m, mType m = MUndefined \/ mType m = MNewSessionHost ->
  from_external files m = EExc (T"[json.exception.type_error.302] type must be string, but is null").
Proof. intros files m [E|E]; unfold from_external, payload; rewrite E; reflexivity. Qed.
Print Assumptions C06_no_type_refuted.
(** Sending a commit throws exactly when one of its texts is not UTF-8 ... *)
Lemma commit_texts c s : text_in s (commit_to_json c) -> Forall words_ok (cFile c :: cStation c :: cFor c) ->
  s = cFileName c \/ s = cComment c \/ wf8 s /\ bytes_ok s.
Proof.
  intros H F. unfold commit_to_json in H. rewrite commit_obj_eq in H. inversion_clear F as [|? ? F1 F']. inversion_clear F' as [|? ? F2 F3].
  assert (A : forall s, forallb (fun c => (0 <? c) && (c <? 128)) s = true -> wf8 s /\ bytes_ok s).
  { intros x Hx. split; [now apply key_wf|]. apply Forall_forall. intros y Hy. rewrite forallb_forall in Hx. apply Hx in Hy. unfold byte_ok. lia. }
  assert (W : forall w s, words_ok w -> text_in s (words_text w) -> wf8 s /\ bytes_ok s).
  { intros w x Hw Hx. destruct (words_text_eq w Hw) as (u & U & _ & Eu). rewrite Eu in Hx. inversion Hx; subst.
    apply A, forallb_forall. intros y Hy. pose proof (uuid_text_ascii u U) as Q. rewrite Forall_forall in Q. apply Q in Hy. lia. }
  inversion H as [| |? x Hx|? k x Hx Kx]; subst.
  - right. right. repeat (destruct Hx as [Hx|Hx]; [injection Hx as <- _; apply A; reflexivity|]). destruct Hx.
  - repeat (destruct Hx as [Hx|Hx]; [injection Hx as _ <-|]); try destruct Hx.
    + inversion Kx. now right; left.
    + inversion Kx. now left.
    + inversion Kx.
    + right. right. eapply W; [exact F1|exact Kx].
    + inversion Kx as [|? x Hx Kx'| |]; subst. apply in_map_iff in Hx as (w & <- & Hw). right. right. eapply W; [|exact Kx'].
      rewrite Forall_forall in F3. now apply F3.
    + right. right. eapply W; [exact F2|exact Kx].
    + inversion Kx. right. right. apply A. reflexivity.
    + inversion Kx.
    + inversion Kx.
Qed.
Lemma commit_in c : text_in (cFileName c) (commit_to_json c) /\ text_in (cComment c) (commit_to_json c).
Proof.
  unfold commit_to_json. rewrite commit_obj_eq. split; (eapply ti_obj; [|apply ti_str]); cbn [In].
  - right. left. reflexivity.
  - left. reflexivity.
Qed.
Theorem C06_commit_throws_iff : forall files m, mType m = MCommit ->
  Forall words_ok (cFile (mCommit m) :: cStation (mCommit m) :: cFor (mCommit m)) ->
  bytes_ok (cFileName (mCommit m)) -> bytes_ok (cComment (mCommit m)) ->
  ((exists w, from_external files m = EExc w) <-> ~ (wf8 (cFileName (mCommit m)) /\ wf8 (cComment (mCommit m)))).
Proof.
  intros files m E F B1 B2. set (c := mCommit m) in *.
  assert (NF : no_float (commit_to_json c)).
  { unfold commit_to_json. rewrite commit_obj_eq. cbn [no_float commit_obj].
    assert (Q : forall w, no_float (words_text w)) by (intros [[[? ?] ?] ?]; exact I).
    clear - Q.
    repeat (split; [exact I || apply Q || idtac|]); [|exact I]. induction (cFor c) as [|w l IH]; [exact I|]. split; [apply Q|exact IH]. }
  assert (TO : texts_ok (commit_to_json c)).
  { intros s Hs. destruct (commit_texts c s Hs F) as [ -> | [ -> | [_ Hb] ] ]; assumption. }
  pose proof (C68_throws_iff (commit_to_json c) NF TO) as K.
  assert (D : (exists w, from_external files m = EExc w) <-> dump (commit_to_json c) = DThrow).
  { unfold from_external, payload. rewrite E. fold c.
    assert (OT : exists o, commit_to_json c = JObj o /\ obj_get o (T"Type") = Some (JStr (T"MVR_COMMIT"))).
    { unfold commit_to_json. rewrite commit_obj_eq. eexists. split; reflexivity. }
    destruct OT as (o & Eo & Et). rewrite Eo, Et. rewrite <- Eo. cbn [ebind get_str].
    destruct (dump (commit_to_json c)); split; try discriminate; try (intros [w Hw]; discriminate Hw); eauto. }
  rewrite D, K. split.
  - intros (s & Hs & Hw) [W1 W2]. destruct (commit_texts c s Hs F) as [ -> | [ -> | [W _] ] ]; contradiction.
  - intros H. assert (X : dump_escaped (cFileName c) = None \/ dump_escaped (cComment c) = None).
    { destruct (dump_escaped (cFileName c)) eqn:E1; [|now left]. destruct (dump_escaped (cComment c)) eqn:E2; [|now right]. elim H.
      split; apply dump_escaped_iff; try assumption; congruence. }
    destruct (commit_in c) as [I1 I2]. destruct X as [X|X].
    + exists (cFileName c). split; [exact I1|]. intros W. apply dump_escaped_iff in W; [congruence|exact B1].
    + exists (cComment c). split; [exact I2|]. intros W. apply dump_escaped_iff in W; [congruence|exact B2].
Qed.
Print Assumptions C06_commit_throws_iff.
(** ... which happens to valid text when assigning it to the field cuts it inside a character. *)
Theorem C06_cut_text_refuted : exists s, wf8 s /\ ~ In 0 s /\ ~ wf8 (fixed_text s)
  /\ from_external (fun _ => []) (set_commit (set_ctext (fixed_text s) [] empty_commit) (set_type MCommit fresh)) = EExc (T"[json.exception.type_error.316] invalid UTF-8 byte").
Proof.
  exists (repeat 97 1022 ++ [195; 164]). split; [|split; [|split]].
  - exists (repeat 97 1022 ++ [228]). split; [|vm_compute; reflexivity]. apply Forall_app. split.
    + apply Forall_forall. intros x Hx. apply repeat_spec in Hx as ->. left. reflexivity.
    + apply Forall_cons; [left; reflexivity|apply Forall_nil].
  - intros H. apply in_app_or in H as [H|H]; [apply repeat_spec in H; discriminate|]. cbn in H. intuition discriminate.
  - intros W. apply dump_escaped_iff in W.
    + revert W. vm_compute. congruence.
    + apply Forall_forall. intros x Hx.
      assert (Q : forallb (fun c => c <? 256) (fixed_text (repeat 97 1022 ++ [195; 164])) = true) by (vm_compute; reflexivity).
      rewrite forallb_forall in Q. apply Q in Hx. unfold byte_ok. lia.
  - vm_compute. reflexivity.
Qed.
Print Assumptions C06_cut_text_refuted.
