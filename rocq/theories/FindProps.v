(** * C129: the files of a fixture are found where its archive was unpacked to *)
From Coq Require Import String List NArith ZArith Lia Bool.
From Coq Require Import ZifyN ZifyNat ZifyBool.
From Verif Require Import Bytes BytesProofs Txt UtfSpec StringSpec StringModel StringProofs PathSpec PathModel PathProofs PathProofs2 PathProps UnpackProps KeepModel FindModel.
Import ListNotations.
Open Scope N_scope.
Open Scope list_scope.

(** The kind of resource a function is for. *)
Definition kind_of (g : getter) : kind :=
  match g with
  | G3DS => Model3DS | G3DSLow => Model3DSLow | G3DSHigh => Model3DSHigh
  | GSVG => ModelSVG | GSVGSide => ModelSVGSide | GSVGFront => ModelSVGFront
  | GGLTF => ModelGLTF | GGLTFLow => ModelGLTFLow | GGLTFHigh => ModelGLTFHigh
  | GGobo => ImageWheel | GThumbPNG | GThumbSVG => RessoureFixture
  end.
(** The name under which such a resource is in the archive. *)
Definition entry_of (g : getter) (name e : list N) : list N := sub_folder (kind_of g) ++ name ++ e.

Definition folders (g : getter) : list (list N) :=
  match g with
  | G3DS => [T"models"; T"3ds"] | G3DSLow => [T"models"; T"3ds_low"] | G3DSHigh => [T"models"; T"3ds_high"]
  | GSVG => [T"models"; T"svg"] | GSVGSide => [T"models"; T"svg_side"] | GSVGFront => [T"models"; T"svg_front"]
  | GGLTF => [T"models"; T"gltf"] | GGLTFLow => [T"models"; T"gltf_low"] | GGLTFHigh => [T"models"; T"gltf_high"]
  | GGobo => [T"wheels"] | GThumbPNG | GThumbSVG => []
  end.
Lemma folders_in g : In (folders g) resource_folders.
Proof. destruct g; cbn; tauto. Qed.
Lemma entry_of_entry g name e : entry_of g name e = entry (folders g) (name ++ e).
Proof. destruct g; reflexivity. Qed.
Lemma ending_ok g e : In e (endings g) -> e <> [] /\ wf16 e /\ ~ In 47 e /\ ~ In 92 e.
Proof.
  destruct g; cbn [endings In]; intros H; repeat (destruct H as [<- |H]); try contradiction;
    (split; [discriminate|]; split; [apply wf16_ascii; repeat constructor; vm_compute; reflexivity|]; split; cbn; lia).
Qed.

Lemma folder_of_ok ws g : Forall plain ws -> folder_of (work ws) g = work (ws ++ one_folder (folders g)).
Proof.
  intros Fw. assert (G : forall c, plain c -> folder_set (work ws) c = work (ws ++ [c])).
  { intros c Pc. destruct (plain_parts ws Fw) as (P1 & P2 & P3 & P4).
    destruct (plain_parts [c] (Forall_cons _ Pc (Forall_nil _))) as (Q1 & Q2 & Q3 & Q4). pose proof Pc as (W & N0 & _ & _ & N47 & _).
    unfold folder_set, work. destruct c as [|c0 c'] eqn:Ec; [congruence|]. rewrite <- Ec in *. rewrite get_full_path_parts, P1. cbn [app].
    assert (Fn : Forall (fun p => ~ In 47 p) ws) by (eapply Forall_impl; [|exact P2]; intros p (A & B & C); exact C).
    assert (Fwf : Forall wf16 ws) by (eapply Forall_impl; [|exact P2]; intros p (A & B & C); exact A).
    rewrite set_full_path_ok by (apply wf16_app; [now apply wf16_join|exact W]).
    rewrite pieces_join_app by assumption. rewrite (pieces_one c) by exact N47.
    rewrite filter_app, (filter_ne_parts ws), (filter_ne_parts [c]) by assumption. rewrite map_app, fold_left_app, (fold_low [[]] ws P3), (fold_low _ [c] Q3).
    rewrite P4, Q4. reflexivity. }
  destruct g; cbn [folder_of folders one_folder]; try (rewrite app_nil_r; reflexivity); (etransitivity; [apply G; cbn [folder_name]; plain_tac|reflexivity]).
Qed.
(** A name that can be the name of a file without its ending. *)
Definition nameable (name : list N) : Prop := wf16 name /\ ~ In 47 name /\ ~ In 92 name.

Lemma no_description g name e : In e (endings g) -> ~ In 47 name -> entry_of g name e <> T"description.xml".
Proof.
  intros He Hn E. apply (f_equal (fun l => nth 0 (rev l) 0)) in E. unfold entry_of in E. rewrite !rev_app_distr in E. 
  destruct g; cbn [endings In] in He; repeat (destruct He as [<- |He]); try contradiction; cbn in E; discriminate.
Qed.

(** Unpacking puts the file where the function looks for it. *)
Lemma same_path ws g name e : Forall plain ws -> nameable name -> In e (endings g) ->
  gdtf_target (work ws) (entry_of g name e) = file_path (file_set (folder_of (work ws) g) (name ++ e)).
Proof.
  intros Fw (W & N47 & N92) He. destruct (ending_ok g e He) as (E0 & E1 & E2 & E3).
  unfold gdtf_target. destruct (equal (entry_of g name e) _) eqn:EQ; [exfalso; apply (no_description g name e He N47); now apply equal_same|].
  rewrite (folder_of_ok ws g Fw). destruct (resource_plain (folders g) (folders_in g)) as (Fd & Bd).
  destruct (plain_parts (folders g) Fd) as (D1 & D2 & D3 & D4). 
  assert (Nf : ~ In 47 (name ++ e)) by (intros K; apply in_app_or in K as [K|K]; contradiction).
  assert (Bf : ~ In 92 (name ++ e)) by (intros K; apply in_app_or in K as [K|K]; contradiction).
  assert (Wf : wf16 (name ++ e)) by (now apply wf16_app).
  assert (Wn : wf16 (entry_of g name e)) by (rewrite entry_of_entry; apply wf16_app; [apply wf16_join; eapply Forall_impl; [|exact D2]; now intros p (A1 & _)|exact Wf]).
  assert (Sp : splits (entry_of g name e) (folders g) (name ++ e)).
  { split; [|split; [eapply Forall_impl; [|exact D2]; intros p (A1 & A2 & A3); now split|now intros K]].
    rewrite entry_of_entry. apply slashes_id. unfold entry. apply Forall_app. split; [|now apply not_in_forall].
    destruct g; cbn; repeat constructor; lia. }
  rewrite (gdtf_folder_ok ws _ _ _ Fw Wn Sp), (gdtf_split_ok _ _ _ Sp). cbn [snd]. f_equal. f_equal.
  unfold one_folder. destruct (folders g) as [|x cs] eqn:Ecs; [cbn [concat filter ne map fold_left]; now rewrite app_nil_r|].
  assert (PC : plain (concat (x :: cs))) by (apply concat_plain; [discriminate|exact Fd]).
  destruct (plain_parts [concat (x :: cs)] (Forall_cons _ PC (Forall_nil _))) as (Q1 & Q2 & Q3 & Q4). rewrite (filter_ne_parts _ Q2), (fold_low _ _ Q3), Q4. reflexivity.
Qed.
Lemma has_path ws g name e : Forall plain ws -> nameable name -> In e (endings g) -> short (join 47 ws) -> short name ->
  exists p, file_path (file_set (folder_of (work ws) g) (name ++ e)) = Some p /\ p <> [].
Proof.
  intros Fw (W & N47 & N92) He Lw Ln. destruct (ending_ok g e He) as (E0 & E1 & E2 & E3). rewrite (folder_of_ok ws g Fw).
  destruct (resource_plain (folders g) (folders_in g)) as (Fd & Bd).
  assert (Fo : Forall plain (ws ++ one_folder (folders g))).
  { apply Forall_app. split; [exact Fw|]. unfold one_folder. destruct (folders g) eqn:Eg; [constructor|]. constructor; [|constructor]. apply concat_plain; [discriminate|exact Fd]. }
  destruct (plain_parts _ Fo) as (P1 & P2 & P3 & P4).
  assert (Nf : ~ In 47 (name ++ e)) by (intros K; apply in_app_or in K as [K|K]; contradiction).
  assert (Nz : name ++ e <> []) by (intros K; apply app_eq_nil in K as (_ & K); contradiction).
  rewrite (file_set_ok (work (ws ++ one_folder (folders g))) (ws ++ one_folder (folders g)) (name ++ e) [] (name ++ e)).
  - cbn [filter]. rewrite app_nil_r, (fold_low [[]] _ P3). unfold file_path. cbn [f_folder f_name app].
    destruct (enc (name ++ e)) as [|c r] eqn:Ee; [apply enc_nil in Ee; contradiction|]. eexists. split; [reflexivity|]. discriminate.
  - discriminate.
  - exact P1.
  - exact P2.
  - exact Nz.
  - now apply wf16_app.
  - assert (Lf : nlen (flat_map (fun p => p ++ [47]) (one_folder (folders g))) <= 20) by (destruct g; vm_compute; discriminate).
    assert (Le : nlen e <= 5) by (clear -He; destruct g; cbn [endings In] in He; repeat (destruct He as [<- |He]); try contradiction; vm_compute; discriminate).
    unfold join. rewrite flat_map_app, !nlen_app. fold (join 47 ws). unfold short, two64 in *. lia.
  - rewrite (pieces_one _ Nf). reflexivity.
Qed.

Lemma on_disk_in disk p : on_disk disk p = true <-> In p disk.
Proof. unfold on_disk. destruct (in_dec _ p disk); split; intros; try assumption; try reflexivity; try discriminate; contradiction. Qed.
Lemma unpack_in ws n entries p : In n entries -> gdtf_target (work ws) n = Some p -> In p (unpack (work ws) entries).
Proof. intros I E. unfold unpack. apply in_flat_map. exists n. rewrite E. split; [exact I|now left]. Qed.
Lemma try_in disk h name e es : In e es -> (exists p, file_path (file_set h (name ++ e)) = Some p /\ In p disk) ->
  exists e', In e' es /\ file_path (file_set h (name ++ e')) = Some (try_endings disk h name es) /\ In (try_endings disk h name es) disk.
Proof.
  induction es as [|a es IH]; intros I (p & E & D); [destruct I|]. cbn [try_endings].
  destruct (file_path (file_set h (name ++ a))) as [q|] eqn:Eq.
  - destruct (on_disk disk q) eqn:O; [exists a; split; [now left|]; split; [exact Eq|now apply on_disk_in]|].
    destruct I as [->|I]; [exfalso; rewrite E in Eq; injection Eq as ->; apply on_disk_in in D; congruence|].
    destruct (IH I (ex_intro _ p (conj E D))) as (e' & A & B). exists e'. split; [now right|exact B].
  - destruct I as [->|I]; [congruence|]. destruct (IH I (ex_intro _ p (conj E D))) as (e' & A & B). exists e'. split; [now right|exact B].
Qed.
Lemma try_none disk h name es : try_endings disk h name es <> [] ->
  exists e, In e es /\ file_path (file_set h (name ++ e)) = Some (try_endings disk h name es) /\ In (try_endings disk h name es) disk.
Proof.
  induction es as [|a es IH]; intros H; [exfalso; apply H; reflexivity|]. cbn [try_endings] in *.
  destruct (file_path (file_set h (name ++ a))) as [q|] eqn:Eq.
  - destruct (on_disk disk q) eqn:O; [exists a; split; [now left|]; split; [exact Eq|now apply on_disk_in]|].
    destruct (IH H) as (e' & A & B). exists e'. split; [now right|exact B].
  - destruct (IH H) as (e' & A & B). exists e'. split; [now right|exact B].
Qed.

(** A resource that is in the archive under the folder of its kind, with one of the endings, is found, whatever else is in the
    archive: the path is the one to which an entry of this kind and name is unpacked, and the file is there. *)
Theorem C129_found : forall ws entries g name e, Forall plain ws -> short (join 47 ws) -> nameable name -> short name ->
  In e (endings g) -> In (entry_of g name e) entries ->
  exists e', In e' (endings g) /\ gdtf_target (work ws) (entry_of g name e') = Some (get (unpack (work ws) entries) (work ws) g name) /\
    In (get (unpack (work ws) entries) (work ws) g name) (unpack (work ws) entries).
Proof.
  intros ws entries g name e Fw Lw Nn Ln He Hi. unfold get.
  destruct (has_path ws g name e Fw Nn He Lw Ln) as (p & Ep & Np).
  destruct (try_in (unpack (work ws) entries) (folder_of (work ws) g) name e (endings g) He) as (e' & A & B & C).
  { exists p. split; [exact Ep|]. apply (unpack_in ws (entry_of g name e)); [exact Hi|]. rewrite (same_path ws g name e Fw Nn He). exact Ep. }
  exists e'. split; [exact A|]. split; [|exact C]. rewrite (same_path ws g name e' Fw Nn A). exact B.
Qed.
(** The endings of the files that the GDTF specification allows. *)
Inductive file_for : getter -> list N -> Prop :=
| for_3ds g : In g [G3DS; G3DSLow; G3DSHigh] -> file_for g (T".3ds")
| for_svg g : In g [GSVG; GSVGSide; GSVGFront; GThumbSVG] -> file_for g (T".svg")
| for_glb g : In g [GGLTF; GGLTFLow; GGLTFHigh] -> file_for g (T".glb")
| for_gltf g : In g [GGLTF; GGLTFLow; GGLTFHigh] -> file_for g (T".gltf")
| for_png g : In g [GGobo; GThumbPNG] -> file_for g (T".png").
Theorem C129_found_type : forall ws entries g name e, Forall plain ws -> short (join 47 ws) -> nameable name -> short name ->
  file_for g e -> In (entry_of g name e) entries ->
  exists e', file_for g e' /\ gdtf_target (work ws) (entry_of g name e') = Some (get (unpack (work ws) entries) (work ws) g name) /\
    In (get (unpack (work ws) entries) (work ws) g name) (unpack (work ws) entries).
Proof.
  intros ws entries g name e Fw Lw Nn Ln He Hi. assert (I : forall x, file_for g x <-> In x (endings g)).
  { intros x. split.
    - intros [h H|h H|h H|h H|h H]; cbn [In] in H; repeat (destruct H as [<- |H]; [cbn [endings In]; tauto|]); destruct H.
    - destruct g; cbn [endings In]; intros H; repeat (destruct H as [<- |H]; [constructor; cbn [In]; tauto|]); destruct H. }
  destruct (C129_found ws entries g name e Fw Lw Nn Ln (proj1 (I e) He) Hi) as (e' & A & B). exists e'. split; [apply I, A|exact B].
Qed.
(** With one ending, or the first one, it is the file of this very entry. *)
Theorem C129_first : forall ws entries g name, Forall plain ws -> short (join 47 ws) -> nameable name -> short name ->
  let e := hd [] (endings g) in In (entry_of g name e) entries ->
  gdtf_target (work ws) (entry_of g name e) = Some (get (unpack (work ws) entries) (work ws) g name).
Proof.
  intros ws entries g name Fw Lw Nn Ln e Hi.
  assert (He : In e (endings g)) by (destruct g; now left). destruct (has_path ws g name e Fw Nn He Lw Ln) as (p & Ep & _).
  pose proof (same_path ws g name e Fw Nn He) as Es. rewrite Ep in Es. rewrite Es. f_equal. unfold get.
  assert (D : on_disk (unpack (work ws) entries) p = true) by (apply on_disk_in; now apply (unpack_in ws (entry_of g name e))).
  unfold e in Ep. destruct g; cbn [endings hd] in Ep |- *; cbn [try_endings]; rewrite Ep, D; reflexivity.
Qed.
(** If the entries are resources of a library file, nothing is found that is not there under the kind asked for. *)
Definition library_entry (n : list N) : Prop := exists cs f, In cs resource_folders /\ plain f /\ ~ In 92 f /\ n = entry cs f /\ short n.
Lemma unpacked ws entries g name e q : Forall plain ws -> short (join 47 ws) -> nameable name -> In e (endings g) ->
  plain (name ++ e) -> short (entry_of g name e) -> Forall library_entry entries ->
  gdtf_target (work ws) (entry_of g name e) = Some q -> In q (unpack (work ws) entries) -> In (entry_of g name e) entries.
Proof.
  intros Fw Lw Nn He Pe Se Fe Ep D. unfold unpack in D. apply in_flat_map in D as (n & Hn & Hd).
  rewrite Forall_forall in Fe. destruct (Fe n Hn) as (cs & f & Ic & Pf & Bf & -> & Sf).
  destruct (gdtf_target (work ws) (entry cs f)) as [q0|] eqn:Eq; [|destruct Hd]. destruct Hd as [->|[]].
  destruct (ending_ok g e He) as (E0 & E1 & E2 & E3). destruct Nn as (W & N47 & N92).
  assert (Be : ~ In 92 (name ++ e)) by (intros K; apply in_app_or in K as [K|K]; contradiction).
  rewrite entry_of_entry in *.
  destruct (resource_plain cs Ic) as (K1 & K2).
  assert (Nd : entry cs f <> T"description.xml") by (intros K; rewrite K in Eq; discriminate Eq).
  destruct (C105_gdtf ws cs f Fw K1 Pf (@Forall_cons _ (fun p => ~ In 92 p) f cs Bf K2) Lw Sf Nd) as (q' & A1 & A2).
  rewrite A1 in Eq. apply some_inj in Eq. subst q'.
  destruct (C105_gdtf_resources ws cs f (folders g) (name ++ e) q q _ Fw Lw Ic Pf Bf Sf (folders_in g) Pe Be Se A1 A2 Ep A2) as (<- & <-).
  exact Hn.
Qed.
Theorem C129_only : forall ws entries g name, Forall plain ws -> short (join 47 ws) -> nameable name ->
  (forall e, In e (endings g) -> plain (name ++ e) /\ short (entry_of g name e)) -> Forall library_entry entries ->
  get (unpack (work ws) entries) (work ws) g name <> [] -> exists e, In e (endings g) /\ In (entry_of g name e) entries.
Proof.
  intros ws entries g name Fw Lw Nn Hp Fe H. destruct (try_none _ _ _ _ H) as (e & He & Ep & D).
  fold (get (unpack (work ws) entries) (work ws) g name) in Ep, D. rewrite <- (same_path ws g name e Fw Nn He) in Ep.
  destruct (Hp e He) as (Pe & Se). exists e. split; [exact He|]. eapply unpacked; eassumption.
Qed.
(** A glTF model with the second ending is found if there is none with the first. *)
Theorem C129_second : forall ws entries g name, In g [GGLTF; GGLTFLow; GGLTFHigh] -> Forall plain ws -> short (join 47 ws) -> nameable name -> short name ->
  plain (name ++ T".glb") -> short (entry_of g name (T".glb")) -> Forall library_entry entries ->
  In (entry_of g name (T".gltf")) entries -> ~ In (entry_of g name (T".glb")) entries ->
  gdtf_target (work ws) (entry_of g name (T".gltf")) = Some (get (unpack (work ws) entries) (work ws) g name).
Proof.
  intros ws entries g name Hg Fw Lw Nn Ln Pn Sn Fe Hi Hn.
  assert (He : endings g = [T".glb"; T".gltf"]) by (destruct Hg as [<- |[<- |[<- |[]]]]; reflexivity).
  assert (H1 : In (T".glb") (endings g)) by (rewrite He; now left).
  destruct (C129_found ws entries g name (T".gltf") Fw Lw Nn Ln ltac:(rewrite He; right; now left) Hi) as (e' & A & B & C).
  rewrite He in A. destruct A as [<- |[<- |[]]]; [|exact B]. exfalso. apply Hn. eapply unpacked; eassumption.
Qed.
Example C129_case : Forall plain home /\ short (join 47 home) /\ nameable (T"head") /\ In (T".3ds") (endings G3DSLow) /\
  entry_of G3DSLow (T"head") (T".3ds") = T"models/3ds_low/head.3ds" /\
  get (unpack (work home) [T"description.xml"; T"models/3ds/head.3ds"; T"models/3ds_low/head.3ds"]) (work home) G3DSLow (T"head") = T"/home/user/scene/models3ds_low/head.3ds" /\
  get (unpack (work home) [T"description.xml"; T"models/3ds/head.3ds"]) (work home) G3DSLow (T"head") = [].
Proof.
  split; [apply home_plain|]. split; [vm_compute; reflexivity|]. split; [split; [apply wf16_ascii; repeat constructor; vm_compute; reflexivity|split; cbn; lia]|].
  split; [now left|]. split; [reflexivity|]. split; lazy; reflexivity.
Qed.
(** A file in a folder below that of its kind is not found under its name. *)
Theorem C129_below_refuted : exists ws entries name, Forall plain ws /\ In (entry_of G3DS name (T".3ds")) entries /\
  get (unpack (work ws) entries) (work ws) G3DS name = [].
Proof.
  exists home, [T"models/3ds/yoke/arm.3ds"], (T"yoke/arm"). split; [apply home_plain|]. split; [now left|]. lazy. reflexivity.
Qed.
(** In an archive of others a file of another folder can be taken for a model. *)
Theorem C129_only_refuted : exists ws entries name, Forall plain ws /\ ~ In (entry_of G3DS name (T".3ds")) entries /\
  get (unpack (work ws) entries) (work ws) G3DS name <> [].
Proof.
  exists home, [T"models3ds/head.3ds"], (T"head"). split; [apply home_plain|]. split; [intros [K|[]]; discriminate K|]. lazy. discriminate.
Qed.

(** ** The returned references *)
(** What a function returned stays as it is while functions with other members are called. *)
Theorem C129_kept : forall disk w name gs m g, (forall h, In h gs -> member_of h <> member_of g) ->
  fold_left (call disk w name) gs (call disk w name m g) (member_of g) = get disk w g name.
Proof.
  intros disk w name gs. 
  assert (K : forall m x, (forall h, In h gs -> member_of h <> x) -> fold_left (call disk w name) gs m x = m x).
  { induction gs as [|h gs IH]; intros m x Hx; [reflexivity|]. cbn [fold_left]. rewrite IH by (intros h' Hh; apply Hx; now right).
    unfold call. destruct (member_dec x (member_of h)) as [E|]; [|reflexivity]. exfalso. apply (Hx h); [now left|now rewrite E]. }
  intros m g Hg. rewrite K by exact Hg. unfold call. destruct (member_dec (member_of g) (member_of g)); [reflexivity|contradiction].
Qed.
(** Functions for different sorts of files have different members. *)
Definition sort_of_file (g : getter) : nat :=
  match g with
  | G3DS | G3DSLow | G3DSHigh => 0 | GSVG | GSVGSide | GSVGFront => 1 | GGLTF | GGLTFLow | GGLTFHigh => 2
  | GGobo => 3 | GThumbPNG => 4 | GThumbSVG => 5
  end.
Theorem C129_kept_apart : forall disk w name gs m g, (forall h, In h gs -> sort_of_file h <> sort_of_file g) ->
  fold_left (call disk w name) gs (call disk w name m g) (member_of g) = get disk w g name.
Proof. intros disk w name gs m g H. apply C129_kept. intros h I E. apply (H h I). revert E. destruct h, g; cbn; intros; congruence. Qed.
(** But the three levels of detail share one: asking for the coarse model replaces the path of the normal one. *)
Theorem C129_kept_refuted : exists disk w name m g h, g <> h /\
  call disk w name m g (member_of g) = T"/home/user/scene/models3ds/head.3ds" /\ call disk w name (call disk w name m g) h (member_of g) = [].
Proof.
  exists (unpack (work home) [T"models/3ds/head.3ds"]), (work home), (T"head"), (fun _ => []), G3DS, G3DSLow. split; [discriminate|]. split; lazy; reflexivity.
Qed.
Print Assumptions C129_found.
Print Assumptions C129_first.
Print Assumptions C129_only.
Print Assumptions C129_second.
Print Assumptions C129_below_refuted.
Print Assumptions C129_only_refuted.
Print Assumptions C129_kept.
Print Assumptions C129_kept_refuted.
Print Assumptions C129_found_type.
Print Assumptions C129_kept_apart.
