(** * C105: different entries of an archive are unpacked to different files

    The model of unpacking is that of C20 (PathModel); here ordinary names are looked at. *)
From Coq Require Import String List NArith ZArith Lia Bool.
From Coq Require Import ZifyN ZifyNat ZifyBool.
From Verif Require Import Bytes BytesProofs Txt UtfSpec StringSpec StringModel StringProofs PathSpec PathModel PathProofs PathProofs2 PathProps.
Import ListNotations.
Open Scope N_scope.
Open Scope list_scope.

(** The name of the entry [f] in the folders [cs], as archives spell it. *)
Definition entry (cs : list (list N)) (f : list N) : list N := flat_map (fun c => c ++ [47]) cs ++ f.
Lemma entry_join cs f : entry cs f = join 47 cs ++ f.
Proof. reflexivity. Qed.
Lemma plain_part p : plain p -> part p.
Proof. intros (A & B & C & D & E & _). repeat split; assumption. Qed.
Lemma put ws cs f : Forall plain ws -> Forall plain cs -> plain f -> nlen (join 47 ws) + nlen (join 47 cs ++ f) + 1 < two64 ->
  exists path, file_path (file_set (work ws) (join 47 cs ++ f)) = Some path /\ location path = Some (ws ++ cs ++ [f]).
Proof.
  intros Fw Fd Pf L. destruct (plain_parts ws Fw) as (P1 & P2 & P3 & P4). destruct (plain_parts cs Fd) as (D1 & D2 & D3 & D4).
  assert (Fn : Forall (fun p => ~ In 47 p) cs) by (eapply Forall_impl; [|exact D2]; intros p (A & B & C); exact C).
  assert (Fwf : Forall wf16 cs) by (eapply Forall_impl; [|exact D2]; intros p (A & B & C); exact A).
  destruct (conv_enc_plain f Pf) as (Ef & Lf & _). pose proof Pf as (W & H1 & H2 & H3 & H4 & H5 & H6).
  assert (EF : file_set (work ws) (join 47 cs ++ f) = mkFile (fold_left add_part (map enc (ws ++ filter ne cs)) [[]]) (enc f)).
  { apply file_set_ok; [discriminate|assumption|assumption| | |assumption|].
    - intros K. apply app_eq_nil in K as (_ & K). contradiction.
    - apply wf16_app; [now apply wf16_join|assumption].
    - now apply pieces_entry. }
  rewrite filter_ne_parts in EF by assumption. assert (A3 : Forall low (ws ++ cs)) by (apply Forall_app; now split). rewrite (fold_low [[]] (ws ++ cs) A3) in EF. rewrite EF.
  unfold file_path. cbn [f_folder f_name app]. assert (Ne : enc f <> []) by (intros K; apply enc_nil in K; contradiction).
  destruct (enc f) as [|c e] eqn:Ee; [congruence|]. rewrite <- Ee. eexists. split; [reflexivity|].
  rewrite (location_some (ws ++ cs) f A3 Pf), (filter_plain (ws ++ cs)) by (apply Forall_app; now split). now rewrite app_assoc.
Qed.
Lemma equal_same a b : equal a b = true -> a = b.
Proof. unfold equal. destruct (ustr_compare a b) eqn:E; try discriminate. intros _. now apply ustr_compare_eq. Qed.
(** An entry of an MVR file: below the working folder under its name. *)
Theorem C105_mvr ws cs f : Forall plain ws -> Forall plain cs -> plain f -> short (join 47 ws) -> short (entry cs f) ->
  entry cs f <> T"GeneralSceneDescription.xml" ->
  exists path, mvr_target (work ws) (entry cs f) = Some path /\ location path = Some (ws ++ cs ++ [f]).
Proof.
  intros Fw Fd Pf L1 L2 N. rewrite entry_join in *. destruct (put ws cs f Fw Fd Pf) as (path & E & L); [unfold short, two64 in *; lia|]. exists path. split; [|exact L].
  unfold mvr_target. destruct (equal (join 47 cs ++ f) _) eqn:EQ; [|exact E]. exfalso. apply N. now apply equal_same.
Qed.
Theorem C105_mvr_apart ws cs f cs' f' path path' loc : Forall plain ws -> short (join 47 ws) ->
  Forall plain cs -> plain f -> short (entry cs f) -> Forall plain cs' -> plain f' -> short (entry cs' f') ->
  mvr_target (work ws) (entry cs f) = Some path -> location path = Some loc ->
  mvr_target (work ws) (entry cs' f') = Some path' -> location path' = Some loc -> entry cs f = entry cs' f'.
Proof.
  intros Fw L Fd Pf L1 Fd' Pf' L2 E EL E' EL'.
  assert (G : forall n, mvr_target (work ws) n = Some path \/ mvr_target (work ws) n = Some path' -> n <> T"GeneralSceneDescription.xml").
  { intros n [H|H] ->; discriminate H. }
  destruct (C105_mvr ws cs f Fw Fd Pf L L1 (G _ (or_introl E))) as (p1 & A1 & B1). destruct (C105_mvr ws cs' f' Fw Fd' Pf' L L2 (G _ (or_intror E'))) as (p2 & A2 & B2).
  rewrite A1 in E. apply some_inj in E. subst p1. rewrite A2 in E'. apply some_inj in E'. subst p2. rewrite B1 in EL. apply some_inj in EL. rewrite B2 in EL'. apply some_inj in EL'. subst loc.
  apply app_inv_head in EL'. apply app_inj_tail in EL' as (<- & <-). reflexivity.
Qed.
(** One of a GDTF file: in one folder, with the names of all its folders one after another. *)
Definition one_folder (cs : list (list N)) : list (list N) := match cs with [] => [] | _ => [concat cs] end.
Lemma concat_plain cs : cs <> [] -> Forall plain cs -> plain (concat cs).
Proof.
  intros N F. assert (I : forall c, Forall (fun p => ~ In c p) cs -> ~ In c (concat cs)).
  { intros c G K. apply in_concat in K as (q & H1 & H2). rewrite Forall_forall in G. now apply (G q H1). }
  unfold plain. split; [apply concat_wf; eapply Forall_impl; [|exact F]; now intros p (A & _)|].
  split; [destruct F as [|p ps (_ & A & _) _]; [congruence|]; cbn [concat]; destruct p; [congruence|discriminate]|].
  split; [|split].
  - intros E. destruct F as [|p ps (_ & A & B & _) _]; [congruence|]. cbn [concat] in E. destruct p as [|c p]; [congruence|]. injection E as -> E. destruct p; [now apply B|discriminate E].
  - intros E. destruct F as [|p ps (_ & A & B & C & _) _]; [congruence|]. cbn [concat] in E. destruct p as [|c p]; [congruence|]. injection E as -> E. destruct p as [|c p]; [now apply B|]. injection E as -> E. destruct p; [now apply C|discriminate E].
  - repeat split; apply I; (eapply Forall_impl; [|exact F]); intros p (A1 & A2 & A3 & A4 & A5 & A6 & A7); assumption.
Qed.
Theorem C105_gdtf ws cs f : Forall plain ws -> Forall plain cs -> plain f -> Forall (fun p => ~ In 92 p) (f :: cs) -> short (join 47 ws) -> short (entry cs f) ->
  entry cs f <> T"description.xml" ->
  exists path, gdtf_target (work ws) (entry cs f) = Some path /\ location path = Some (ws ++ one_folder cs ++ [f]).
Proof.
  intros Fw Fd Pf B L1 L2 N. unfold gdtf_target. destruct (equal (entry cs f) _) eqn:EQ; [exfalso; apply N; now apply equal_same|]. clear EQ N.
  destruct (plain_parts ws Fw) as (P1 & P2 & P3 & P4). destruct (plain_parts cs Fd) as (D1 & D2 & D3 & D4). pose proof Pf as (W & H1 & H2 & H3 & H4 & H5 & H6).
  assert (Es : slashes (entry cs f) = entry cs f).
  { apply slashes_id. unfold entry. inversion_clear B as [|? ? B1 B2]. apply Forall_app. split; [|now apply not_in_forall]. induction B2 as [|p ps X _ IH]; [constructor|]. inversion_clear Fd as [|? ? F1 F2]. destruct (plain_parts ps F2) as (Q1 & Q2 & Q3 & Q4).
    cbn [flat_map]. apply Forall_app. split; [apply Forall_app; split; [now apply not_in_forall|constructor; [lia|constructor]]|]. apply IH; try assumption. unfold short, entry in *. cbn [flat_map] in L2. rewrite !nlen_app in L2. rewrite nlen_app. lia. }
  assert (Sp : splits (entry cs f) cs f).
  { split; [exact Es|]. split; [|now intros K]. eapply Forall_impl; [|exact D2]. intros p (A1 & A2 & A3). now split. }
  assert (Wn : wf16 (entry cs f)) by (apply wf16_app; [apply wf16_join; eapply Forall_impl; [|exact D2]; now intros p (A1 & _)|exact W]).
  rewrite (gdtf_folder_ok ws (entry cs f) cs f Fw Wn Sp), (gdtf_split_ok _ _ _ Sp). cbn [snd]. pose proof (concat_len cs) as CL.
  assert (EH : fold_left add_part (map enc (filter ne [concat cs])) (work ws) = work (ws ++ one_folder cs)).
  { unfold one_folder. destruct cs as [|x cs]; [cbn [concat filter ne map fold_left]; now rewrite app_nil_r|]. assert (PC : plain (concat (x :: cs))) by (apply concat_plain; [discriminate|exact Fd]).
    destruct (plain_parts [concat (x :: cs)] (Forall_cons _ PC (Forall_nil _))) as (Q1 & Q2 & Q3 & Q4). rewrite (filter_ne_parts _ Q2), (fold_low _ _ Q3). rewrite Q4. reflexivity. }
  rewrite EH. assert (PW : Forall plain (ws ++ one_folder cs)).
  { apply Forall_app. split; [exact Fw|]. unfold one_folder. destruct cs; [constructor|]. constructor; [|constructor]. apply concat_plain; [discriminate|exact Fd]. }
  destruct (put (ws ++ one_folder cs) [] f PW (Forall_nil _) Pf) as (path & E & L).
  { assert (nlen (join 47 (ws ++ one_folder cs)) <= nlen (join 47 ws) + nlen (join 47 cs) + 1).
    { unfold join at 1. rewrite flat_map_app, nlen_app. fold (join 47 ws). enough (nlen (flat_map (fun p => p ++ [47]) (one_folder cs)) <= nlen (join 47 cs) + 1) by lia.
      unfold one_folder. destruct cs as [|x cs]; [cbn; lia|]. cbn [flat_map]. rewrite !nlen_app, nlen_cons, nlen_nil. lia. }
    unfold short, two64 in *. rewrite entry_join, nlen_app in L2. cbn [join flat_map app]. lia. }
  exists path. split; [exact E|]. rewrite L. cbn [app]. now rewrite app_assoc.
Qed.
(** The folders the library puts resources into (XmlFileHelper.cpp:2273-2306): resources of different kinds or
    with different names stay apart. *)
Definition resource_folders : list (list (list N)) :=
  [[]; [T"wheels"]] ++ map (fun x => [T"models"; x]) [T"3ds"; T"3ds_low"; T"3ds_high"; T"svg"; T"svg_side"; T"svg_front"; T"gltf"; T"gltf_low"; T"gltf_high"].
Lemma resource_plain c : In c resource_folders -> Forall plain c /\ Forall (fun p => ~ In 92 p) c.
Proof.
  intros I. cbn [resource_folders map app In] in I.
  repeat (destruct I as [<- |I]; [split; repeat (apply Forall_cons; [first [plain_tac|cbn; lia]|]); apply Forall_nil|]). destruct I.
Qed.
Theorem C105_gdtf_resources ws cs f cs' f' path path' loc : Forall plain ws -> short (join 47 ws) ->
  In cs resource_folders -> plain f -> ~ In 92 f -> short (entry cs f) -> In cs' resource_folders -> plain f' -> ~ In 92 f' -> short (entry cs' f') ->
  gdtf_target (work ws) (entry cs f) = Some path -> location path = Some loc ->
  gdtf_target (work ws) (entry cs' f') = Some path' -> location path' = Some loc -> cs = cs' /\ f = f'.
Proof.
  intros Fw L C F B L1 C' F' B' L2 E EL E' EL'. destruct (resource_plain cs C) as (K1 & K2). destruct (resource_plain cs' C') as (K1' & K2').
  assert (G : forall n, gdtf_target (work ws) n = Some path \/ gdtf_target (work ws) n = Some path' -> n <> T"description.xml") by (intros n [H|H] ->; discriminate H).
  destruct (C105_gdtf ws cs f Fw K1 F (@Forall_cons _ (fun p => ~ In 92 p) f cs B K2) L L1 (G _ (or_introl E))) as (p1 & A1 & A2). destruct (C105_gdtf ws cs' f' Fw K1' F' (@Forall_cons _ (fun p => ~ In 92 p) f' cs' B' K2') L L2 (G _ (or_intror E'))) as (p2 & A3 & A4).
  rewrite A1 in E. apply some_inj in E. subst p1. rewrite A3 in E'. apply some_inj in E'. subst p2. rewrite A2 in EL. apply some_inj in EL. rewrite A4 in EL'. apply some_inj in EL'. subst loc.
  apply app_inv_head in EL'. apply app_inj_tail in EL' as (EO & <-). split; [|reflexivity]. clear -C C' EO.
  cbn [resource_folders map app In] in C, C'. repeat (destruct C as [<- |C]; [|]); try destruct C; repeat (destruct C' as [<- |C']; [|]); try destruct C'; first [reflexivity|discriminate EO].
Qed.
(** In general it is false: escapes are resolved, and flat folders can agree. *)
Theorem C105_mvr_refuted : exists ws a b path, Forall plain ws /\ a <> b /\ ~ In 47 a /\ ~ In 47 b /\ mvr_target (work ws) a = Some path /\ mvr_target (work ws) b = Some path.
Proof.
  exists home, (T"a*b.png"), (T"a%2Ab.png"), (T"/home/user/scene/a*b.png"). split; [apply home_plain|]. split; [discriminate|]. split; [cbn; lia|]. split; [cbn; lia|]. split; lazy; reflexivity.
Qed.
Theorem C105_gdtf_refuted : exists ws cs cs' f path, Forall plain ws /\ Forall plain cs /\ Forall plain cs' /\ plain f /\ cs <> cs' /\
  gdtf_target (work ws) (entry cs f) = Some path /\ gdtf_target (work ws) (entry cs' f) = Some path.
Proof.
  exists home, [T"wheels"; T"low"], [T"wheelslow"], (T"a.png"), (T"/home/user/scene/wheelslow/a.png"). split; [apply home_plain|].
  do 2 (split; [repeat (apply Forall_cons; [plain_tac|]); apply Forall_nil|]). split; [plain_tac|]. split; [discriminate|]. split; lazy; reflexivity.
Qed.
Example C105_case : Forall plain home /\ short (join 47 home) /\ In [T"models"; T"3ds_low"] resource_folders /\ plain (T"b.3ds") /\ short (entry [T"models"; T"3ds_low"] (T"b.3ds")) /\
  gdtf_target (work home) (entry [T"models"; T"3ds_low"] (T"b.3ds")) = Some (T"/home/user/scene/models3ds_low/b.3ds") /\
  mvr_target (work home) (entry [T"models"; T"3ds_low"] (T"b.3ds")) = Some (T"/home/user/scene/models/3ds_low/b.3ds").
Proof. split; [apply home_plain|]. split; [vm_compute; reflexivity|]. split; [cbn; tauto|]. split; [plain_tac|]. split; [vm_compute; reflexivity|]. split; lazy; reflexivity. Qed.
Print Assumptions C105_mvr.
Print Assumptions C105_mvr_apart.
Print Assumptions C105_gdtf.
Print Assumptions C105_gdtf_resources.
Print Assumptions C105_mvr_refuted.
Print Assumptions C105_gdtf_refuted.
