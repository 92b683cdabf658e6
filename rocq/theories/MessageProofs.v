(** Lemmas for the message properties. *)
From Coq Require Import List NArith ZArith String Lia Bool Sorting.
From Coq Require Import ZifyN ZifyNat ZifyBool.
From Verif Require Import Bytes BytesProofs Txt NumModel NumProofs UtfSpec UtfModel UtfProofs UuidModel UuidProps ConvModel ConvProps ConvProps3.
From Verif Require Import JsonModel JsonProofs JsonParse JsonProps MessageModel.
Import ListNotations.
Open Scope N_scope.
Ltac Zify.zify_post_hook ::= Z.div_mod_to_equations.

(** ** Identifiers *)
Definition words_ok (w : words) : Prop := let '(a, b, c, d) := w in word_ok a /\ word_ok b /\ word_ok c /\ word_ok d.
Lemma hexbytes_ascii u : bytes_ok u -> Forall (fun c => 0 < c /\ c < 128) (hexbytes u).
Proof.
  induction u as [|b u IH]; intros B; [constructor|]. inversion_clear B as [|? ? Hb B']. unfold byte_ok in Hb.
  change (hexbytes (b :: u)) with ([hexU (b / 16); hexU (b mod 16)] ++ hexbytes u). apply Forall_app. split; [|now apply IH].
  pose proof (hexU_range (b / 16) ltac:(lia)). pose proof (hexU_range (b mod 16) ltac:(lia)).
  repeat (apply Forall_cons; [lia|]). apply Forall_nil.
Qed.
Lemma uuid_text_ascii u : uuid_ok u -> Forall (fun c => 0 < c /\ c < 128) (uuid_text false u).
Proof.
  intros [B L]. assert (F : forall n, bytes_ok (firstn n u)) by (intros n; unfold bytes_ok in *; rewrite <- (firstn_skipn n u) in B; now apply Forall_app in B).
  assert (K : forall n, bytes_ok (skipn n u)) by (intros n; unfold bytes_ok in *; rewrite <- (firstn_skipn n u) in B; now apply Forall_app in B).
  assert (FK : forall n k, bytes_ok (firstn n (skipn k u)))
    by (intros n k; specialize (K k); unfold bytes_ok in *; rewrite <- (firstn_skipn n (skipn k u)) in K; now apply Forall_app in K).
  assert (D : Forall (fun c => 0 < c /\ c < 128) (T"-")) by (change (Forall (fun c => 0 < c /\ c < 128) [45]); apply Forall_cons; [lia|apply Forall_nil]).
  unfold uuid_text. cbv zeta. repeat (apply Forall_app; split); try exact D; apply hexbytes_ascii; auto.
Qed.
Lemma ascii_wf8 s : Forall (fun c => 0 < c /\ c < 128) s -> wf8 s /\ set_from_chars s = Some s.
Proof.
  intros F. assert (F' : Forall (fun c => c < 128) s) by (eapply Forall_impl; [|exact F]; intros c H; cbv beta in *; lia). split.
  - exists s. split; [eapply Forall_impl; [|exact F']; unfold scalar; intros c H; cbv beta in *; lia|]. symmetry. now apply enc8_ascii.
  - unfold set_from_chars. rewrite upto_nul_id; [now apply from_bytes_ascii|]. intros H. rewrite Forall_forall in F. apply F in H. cbv beta in H. lia.
Qed.
Lemma words_text_eq w : words_ok w -> exists u, uuid_ok u /\ get_words true u = Some w /\ words_text w = JStr (uuid_text false u).
Proof.
  destruct w as [[[a b] c] d]. intros (Ha & Hb & Hc & Hd). destruct (C29_words_back a b c d Ha Hb Hc Hd) as [U W].
  exists (from_words a b c d). split; [exact U|]. split; [exact W|]. unfold words_text, write_uuid. now rewrite to_string_text.
Qed.
Lemma words_text_wf w : words_ok w -> jwf (words_text w).
Proof. intros H. destruct (words_text_eq w H) as (u & U & _ & ->). apply ascii_wf8, uuid_text_ascii, U. Qed.
Lemma get_uuid_back w old : words_ok w -> get_uuid true old (words_text w) = EOk (true, w).
Proof.
  intros H. destruct (words_text_eq w H) as (u & U & W & ->). unfold get_uuid. cbn [get_str ebind].
  destruct (ascii_wf8 _ (uuid_text_ascii u U)) as [_ ->].
  destruct (C44_read u (uuid_text false u) [] U (or_intror (uuid_text_upper false u U))) as [_ R]. rewrite (R true w W old). reflexivity.
Qed.

(** ** Texts *)
Definition text_ok (s : list N) : Prop := wf8 s /\ ~ In 0 s /\ nlen s < 1024.
Lemma get_text_back s : text_ok s -> get_text (JStr s) = EOk s.
Proof.
  intros (_ & H0 & HL). unfold get_text. cbn [get_str ebind]. rewrite upto_nul_id by exact H0.
  replace (nlen s <? 1024) with true by lia. reflexivity.
Qed.

(** ** Objects *)
Ltac sorted_keys := repeat (apply SSorted_cons; [|repeat (apply Forall_cons; [reflexivity|]); apply Forall_nil]); apply SSorted_nil.
Lemma key_wf s : forallb (fun c => (0 <? c) && (c <? 128)) s = true -> wf8 s.
Proof. intros H. apply ascii_wf8, Forall_forall. intros c Hc. rewrite forallb_forall in H. apply H in Hc. lia. Qed.
Ltac ascii_key := apply key_wf; reflexivity.

Ltac obj_fields F := repeat (apply Forall_cons; [split; [cbn [fst]; ascii_key|exact (Forall_inv F)]|apply Forall_inv_tail in F]); apply Forall_nil.

Section CommitObject.
Variables ty fn co sz fu su mi ma fo : json.
Definition commit_obj : json := JObj [(T"Comment", co); (T"FileName", fn); (T"FileSize", sz); (T"FileUUID", fu);
  (T"ForStationsUUID", fo); (T"StationUUID", su); (T"Type", ty); (T"verMajor", ma); (T"verMinor", mi)].
Lemma commit_obj_eq : JObj (set_all [] [(T"Type", ty); (T"FileName", fn); (T"Comment", co);
    (T"FileSize", sz); (T"FileUUID", fu); (T"StationUUID", su);
    (T"verMinor", mi); (T"verMajor", ma); (T"ForStationsUUID", fo)]) = commit_obj.
Proof. reflexivity. Qed.
Lemma commit_obj_keys : at_key commit_obj (T"Comment") = EOk co /\ at_key commit_obj (T"FileName") = EOk fn
  /\ at_key commit_obj (T"FileSize") = EOk sz /\ at_key commit_obj (T"FileUUID") = EOk fu /\ at_key commit_obj (T"ForStationsUUID") = EOk fo
  /\ at_key commit_obj (T"StationUUID") = EOk su /\ at_key commit_obj (T"verMajor") = EOk ma /\ at_key commit_obj (T"verMinor") = EOk mi
  /\ at_key commit_obj (T"Type") = EOk ty.
Proof. repeat (split; [reflexivity|]). reflexivity. Qed.
Lemma commit_obj_wf : Forall jwf [co; fn; sz; fu; fo; su; ty; ma; mi] -> jwf commit_obj.
Proof.
  intros F. apply jwf_obj. split; [sorted_keys|].
  obj_fields F.
Qed.
End CommitObject.

Section JoinObject.
Variables ty pr na su ma mi cs ok me : json.
Definition join_obj : json := JObj [(T"Commits", cs); (T"Provider", pr); (T"StationName", na); (T"StationUUID", su);
  (T"Type", ty); (T"verMajor", ma); (T"verMinor", mi)].
Lemma join_obj_eq : JObj (set_all [] [(T"Type", ty); (T"Provider", pr); (T"StationName", na);
  (T"StationUUID", su); (T"verMajor", ma); (T"verMinor", mi); (T"Commits", cs)]) = join_obj.
Proof. reflexivity. Qed.
Lemma join_obj_keys : at_key join_obj (T"Commits") = EOk cs /\ at_key join_obj (T"Provider") = EOk pr /\ at_key join_obj (T"StationName") = EOk na
  /\ at_key join_obj (T"StationUUID") = EOk su /\ at_key join_obj (T"verMajor") = EOk ma /\ at_key join_obj (T"verMinor") = EOk mi
  /\ at_key join_obj (T"Type") = EOk ty.
Proof. repeat (split; [reflexivity|]). reflexivity. Qed.
Lemma join_obj_wf : Forall jwf [cs; pr; na; su; ty; ma; mi] -> jwf join_obj.
Proof. intros F. apply jwf_obj. split; [sorted_keys|]. obj_fields F. Qed.
Definition joinret_obj : json := JObj [(T"Commits", cs); (T"Message", me); (T"OK", ok); (T"Provider", pr); (T"StationName", na); (T"StationUUID", su);
  (T"Type", ty); (T"verMajor", ma); (T"verMinor", mi)].
Lemma joinret_obj_eq : JObj (set_all [] ([(T"OK", ok); (T"Message", me)] ++ [(T"Type", ty); (T"Provider", pr); (T"StationName", na);
  (T"StationUUID", su); (T"verMajor", ma); (T"verMinor", mi); (T"Commits", cs)])) = joinret_obj.
Proof. reflexivity. Qed.
Lemma joinret_obj_keys : at_key joinret_obj (T"Commits") = EOk cs /\ at_key joinret_obj (T"Provider") = EOk pr /\ at_key joinret_obj (T"StationName") = EOk na
  /\ at_key joinret_obj (T"StationUUID") = EOk su /\ at_key joinret_obj (T"verMajor") = EOk ma /\ at_key joinret_obj (T"verMinor") = EOk mi
  /\ at_key joinret_obj (T"OK") = EOk ok /\ at_key joinret_obj (T"Message") = EOk me
  /\ at_key joinret_obj (T"Type") = EOk ty.
Proof. repeat (split; [reflexivity|]). reflexivity. Qed.
Lemma joinret_obj_wf : Forall jwf [cs; me; ok; pr; na; su; ty; ma; mi] -> jwf joinret_obj.
Proof. intros F. apply jwf_obj. split; [sorted_keys|]. obj_fields F. Qed.
Definition ret_obj : json := JObj [(T"Message", me); (T"OK", ok); (T"Type", ty)].
Lemma ret_obj_eq : JObj (set_all [] [(T"Type", ty); (T"OK", ok); (T"Message", me)]) = ret_obj.
Proof. reflexivity. Qed.
Lemma ret_obj_keys : at_key ret_obj (T"OK") = EOk ok /\ at_key ret_obj (T"Message") = EOk me /\ at_key ret_obj (T"Type") = EOk ty.
Proof. repeat (split; [reflexivity|]). reflexivity. Qed.
Lemma ret_obj_wf : Forall jwf [me; ok; ty] -> jwf ret_obj.
Proof. intros F. apply jwf_obj. split; [sorted_keys|]. obj_fields F. Qed.
Definition leave_obj : json := JObj [(T"FromStationUUID", su); (T"Type", ty)].
Lemma leave_obj_eq : JObj (set_all [] [(T"Type", ty); (T"FromStationUUID", su)]) = leave_obj.
Proof. reflexivity. Qed.
Lemma leave_obj_keys : at_key leave_obj (T"FromStationUUID") = EOk su /\ at_key leave_obj (T"Type") = EOk ty.
Proof. repeat (split; [reflexivity|]). reflexivity. Qed.
Lemma leave_obj_wf : Forall jwf [su; ty] -> jwf leave_obj.
Proof. intros F. apply jwf_obj. split; [sorted_keys|]. obj_fields F. Qed.
Definition request_obj : json := JObj [(T"FileUUID", su); (T"FromStationUUID", cs); (T"Type", ty)].
Lemma request_obj_eq : JObj (set_all [] [(T"Type", ty); (T"FileUUID", su); (T"FromStationUUID", cs)]) = request_obj.
Proof. reflexivity. Qed.
Lemma request_obj_keys : at_key request_obj (T"FromStationUUID") = EOk cs /\ at_key request_obj (T"FileUUID") = EOk su /\ at_key request_obj (T"Type") = EOk ty.
Proof. repeat (split; [reflexivity|]). reflexivity. Qed.
Lemma request_obj_wf : Forall jwf [su; cs; ty] -> jwf request_obj.
Proof. intros F. apply jwf_obj. split; [sorted_keys|]. obj_fields F. Qed.
End JoinObject.

(** ** Reading back what was written *)
Definition commit_ok (c : commit) : Prop :=
  text_ok (cFileName c) /\ text_ok (cComment c) /\ cMajor c < 2 ^ 32 /\ cMinor c < 2 ^ 32 /\ cSize c < 2 ^ 64
  /\ words_ok (cFile c) /\ words_ok (cStation c) /\ Forall words_ok (cFor c).
Lemma stations_back {S} (put : list words -> S) k : forall ws l, Forall words_ok ws ->
  read_stations true put l (map words_text ws) k = k (l ++ ws).
Proof.
  induction ws as [|w ws IH]; intros l F; [cbn; now rewrite app_nil_r|]. inversion_clear F as [|? ? H F'].
  cbn [map read_stations]. rewrite get_uuid_back by exact H. cbn [step fst snd]. rewrite IH by exact F'. now rewrite <- app_assoc.
Qed.
Lemma uns_back w n : n < 2 ^ w -> number_to_uint w (JUns n) = EOk n.
Proof. intros H. cbn [number_to_uint]. now rewrite N.mod_small. Qed.
Ltac crec := cbn [step ebind fst snd elements set_ctext set_cnum set_cuuid cFileName cComment cMajor cMinor cSize cFile cStation cFor]; cbv zeta.
Lemma commit_back c c0 : commit_ok c -> commit_from_json true (commit_to_json c) c0 = ORet c.
Proof.
  intros (H1 & H2 & H3 & H4 & H5 & H6 & H7 & H8). unfold commit_to_json. rewrite commit_obj_eq.
  set (o := commit_obj _ _ _ _ _ _ _ _ _). unfold commit_from_json.
  destruct (commit_obj_keys (JStr (T"MVR_COMMIT")) (JStr (cFileName c)) (JStr (cComment c)) (JUns (cSize c)) (words_text (cFile c)) (words_text (cStation c))
    (JUns (cMinor c)) (JUns (cMajor c)) (JArr (map words_text (cFor c)))) as (K1 & K2 & K3 & K4 & K5 & K6 & K7 & K8 & _).
  fold o in K1, K2, K3, K4, K5, K6, K7, K8. clearbody o.
  rewrite K1, K2, K3, K4, K5, K6, K7, K8. cbn [ebind]. unfold get_u32, get_u64. crec.
  rewrite get_text_back by assumption. crec. rewrite uns_back by assumption. crec. rewrite uns_back by assumption. crec.
  rewrite uns_back by assumption. crec. rewrite get_text_back by assumption. crec.
  rewrite get_uuid_back by assumption. crec. rewrite get_uuid_back by assumption. crec.
  rewrite stations_back by assumption.
  cbn. now destruct c.
Qed.
Lemma commit_json_wf c : commit_ok c -> jwf (commit_to_json c).
Proof.
  intros ((H1 & _) & (H2 & _) & H3 & H4 & H5 & H6 & H7 & H8). unfold commit_to_json. rewrite commit_obj_eq. apply commit_obj_wf.
  repeat (apply Forall_cons); try apply Forall_nil; try (now apply words_text_wf); try assumption.
  - apply jwf_arr. apply Forall_map. eapply Forall_impl; [|exact H8]. apply words_text_wf.
  - apply key_wf. reflexivity.
  - cbn [jwf]. lia.
  - cbn [jwf]. lia.
Qed.
Lemma commits_back put k : forall cs l, Forall commit_ok cs ->
  read_commits true put l (map commit_to_json cs) k = k (l ++ cs).
Proof.
  induction cs as [|c cs IH]; intros l F; [cbn; now rewrite app_nil_r|]. inversion_clear F as [|? ? H F'].
  cbn [map read_commits]. rewrite commit_back by exact H. cbn [lift_commit]. rewrite IH by exact F'. now rewrite <- app_assoc.
Qed.
Lemma ret_back o m b e k : at_key o (T"OK") = EOk (JBool b) -> at_key o (T"Message") = EOk (JStr e) -> text_ok e ->
  read_ret o m k = k (set_ret b e m).
Proof.
  intros K1 K2 H. unfold read_ret. rewrite K1, K2. cbn [ebind string_bool step]. rewrite get_text_back by exact H. reflexivity.
Qed.
