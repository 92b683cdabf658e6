(** Whole scenes: the document, and references that are found again. *)
From Coq Require Import String List NArith ZArith Bool Lia.
From Verif Require Import Bytes BytesProofs Txt UtfModel StringModel StringProofs NumModel ConvModel UuidModel UuidProps
  XmlModel XmlSpec XmlProofs ObjModel ObjSpec ObjConv ObjAttrs ObjTree SceneModel SceneSpec SceneConv SceneTree.
Import ListNotations.
Open Scope N_scope.
Open Scope list_scope.

(** ** The document *)
Lemma list_back c l : c <> SGobo -> of_kind c l ->
  exists ks, write_sobjs l = Ok (map sk_node ks) /\ map sk_obj ks = l /\ Forall reads_as ks /\ Forall (fun k => sclass (sk_obj k) = c) ks.
Proof.
  intros NG K. induction K as [|o l (C & OK) K IH]; [exists []; repeat split; constructor|]. destruct IH as (ks & E & M & R & CC).
  destruct (tree_back o OK) as (ns & W & [(_ & G & _) |(k & <- & -> & RK)]); [congruence|]. exists (k :: ks). cbn [write_sobjs map]. rewrite W. cbn [bind]. rewrite E.
  cbn [bind app]. split; [reflexivity|]. split; [now rewrite M|]. split; constructor; auto.
Qed.
Lemma node_reads k c : reads_as k -> sclass (sk_obj k) = c -> sread_node c (sk_node k) = Ok (sk_back k).
Proof. intros (_ & _ & _ & H) <-. apply H. apply le_n. Qed.
Lemma kinds_read u name c ks : skind_of [(name, c)] (sname c) = Some c -> (u = true -> uuid_entry c) ->
  Forall reads_as ks -> Forall (fun k => sclass (sk_obj k) = c) ks -> read_kinds sread_node u [(name, c)] (map sel ks) = Ok (map sk_back ks).
Proof.
  intros SK U R C. induction R as [|k ks RK R IH]; [reflexivity|]. inversion C as [|? ? C1 C2]; subst. cbn [map]. unfold sel at 1. cbn [read_kinds].
  rewrite SK. pose proof RK as (_ & _ & HU & _).
  assert (Z : u && negb (has_uuid (sk_node k)) = false) by (destruct u; [rewrite (proj1 (HU (U eq_refl)))|]; reflexivity).
  rewrite Z, (node_reads k _ RK eq_refl). cbn [bind]. rewrite (IH C2). reflexivity.
Qed.
Lemma selements_app l m : Forall reads_as l -> elements (map sk_node l ++ m) = do e <- elements m; Ok (map sel l ++ e).
Proof.
  induction 1 as [|k l ((a & ks & E) & _) F IH]; [cbn [map app]; destruct (elements m); reflexivity|]. cbn [map app]. unfold sel at 1. rewrite E. cbn [elements].
  rewrite (ascii_text _ (sname_ascii _)), IH. cbn [bind]. destruct (elements m); reflexivity.
Qed.
Definition keyed (o : sobj) (back : sobj) : list N * sobj := (guid_text o, back).
Definition keyed_kid (k : skid) : list N * sobj := (guid_text (sk_obj k), sk_back k).
Lemma aux_maps ks rest r : Forall reads_as ks -> Forall (fun k => sclass (sk_obj k) = SMapDef) ks ->
  read_aux (map sel ks ++ rest) r = read_aux rest (mkRaw (rw_data r) (rw_symdefs r) (rw_positions r) (rw_classes r) (rw_maps r ++ map sk_back ks) (rw_layers r)).
Proof.
  intros R C. revert r. induction R as [|k ks RK R IH]; intros r; [cbn [map app]; rewrite app_nil_r; now destruct r|]. inversion C as [|? ? C1 C2]; subst.
  cbn [map app]. unfold sel at 1. cbn [read_aux]. rewrite C1. change (sname SMapDef) with (T"MappingDefinition").
  change (txeq T"MappingDefinition" T"Symdef") with false. change (txeq T"MappingDefinition" T"Position") with false.
  change (txeq T"MappingDefinition" T"Class") with false. change (txeq T"MappingDefinition" T"MappingDefinition") with true. cbv iota.
  rewrite (node_reads k _ RK C1). cbn [bind]. rewrite (IH C2). cbn [rw_data rw_symdefs rw_positions rw_classes rw_maps rw_layers]. now rewrite <- app_assoc.
Qed.
Lemma aux_positions ks rest r : Forall reads_as ks -> Forall (fun k => sclass (sk_obj k) = SPosition) ks ->
  read_aux (map sel ks ++ rest) r = read_aux rest (mkRaw (rw_data r) (rw_symdefs r) (rw_positions r ++ map sk_back ks) (rw_classes r) (rw_maps r) (rw_layers r)).
Proof.
  intros R C. revert r. induction R as [|k ks RK R IH]; intros r; [cbn [map app]; rewrite app_nil_r; now destruct r|]. inversion C as [|? ? C1 C2]; subst.
  cbn [map app]. unfold sel at 1. cbn [read_aux]. rewrite C1. change (sname SPosition) with (T"Position").
  change (txeq T"Position" T"Symdef") with false. change (txeq T"Position" T"Position") with true. cbv iota.
  rewrite (node_reads k _ RK C1). cbn [bind]. rewrite (IH C2). cbn [rw_data rw_symdefs rw_positions rw_classes rw_maps rw_layers]. now rewrite <- app_assoc.
Qed.
Lemma aux_symdefs ks rest r : Forall reads_as ks -> Forall (fun k => sclass (sk_obj k) = SSymdef) ks ->
  read_aux (map sel ks ++ rest) r = read_aux rest (mkRaw (rw_data r) (rw_symdefs r ++ map keyed_kid ks) (rw_positions r) (rw_classes r) (rw_maps r) (rw_layers r)).
Proof.
  intros R C. revert r. induction R as [|k ks RK R IH]; intros r; [cbn [map app]; rewrite app_nil_r; now destruct r|]. inversion C as [|? ? C1 C2]; subst.
  cbn [map app]. unfold sel at 1. cbn [read_aux]. rewrite C1. change (sname SSymdef) with (T"Symdef").
  change (txeq T"Symdef" T"Symdef") with true. cbv iota. pose proof RK as (_ & _ & HU & _).
  rewrite (node_reads k _ RK C1). cbn [bind]. rewrite (proj2 (HU ltac:(rewrite C1; reflexivity))). cbn [bind]. rewrite (IH C2).
  cbn [rw_data rw_symdefs rw_positions rw_classes rw_maps rw_layers]. unfold keyed_kid at 2. now rewrite <- app_assoc.
Qed.
Definition same_lists (s s' : scene) : Prop :=
  Forall2 same_sobj (sc_data s) (sc_data s') /\ Forall2 same_sobj (sc_layers s) (sc_layers s') /\
  Forall2 same_sobj (sc_maps s) (sc_maps s') /\ Forall2 same_sobj (sc_positions s) (sc_positions s') /\ Forall2 same_sobj (sc_symdefs s) (sc_symdefs s').
Definition listed (s : scene) : Prop :=
  good (sc_provider s) /\ good (sc_version s) /\ of_kind SProvider (sc_data s) /\ of_kind SLayer (sc_layers s) /\
  of_kind SMapDef (sc_maps s) /\ of_kind SPosition (sc_positions s) /\ of_kind SSymdef (sc_symdefs s).
Definition raw_of (s : scene) : raw :=
  mkRaw (sc_data s) (map (fun o => (guid_text o, o)) (sc_symdefs s)) (sc_positions s) [] (sc_maps s) (sc_layers s).
Lemma same_guid_text o o' : same_sobj o o' -> guid_text o' = guid_text o.
Proof. intros H. destruct H as [c vs vs' kss kss' E _]. unfold guid_text. cbn [smembers]. destruct (E "fGuid"%string) as [-> |K]; [reflexivity|]. destruct (get "fGuid" vs), (get "fGuid" vs'); try contradiction; reflexivity. Qed.
Theorem document s : listed s -> exists n s', write_scene s = Ok n /\ read_raw n = Ok (raw_of s') /\ same_lists s s' /\
  sc_provider s' = [] /\ sc_version s' = [] /\ sc_classes s' = [].
Proof.
  intros (P & V & D & L & M & PO & SY). unfold write_scene. destruct (good_bytes _ P) as (pb & -> & _). destruct (good_bytes _ V) as (vb & -> & _). cbn [bind].
  destruct (list_back SProvider _ ltac:(discriminate) D) as (dk & -> & ED & RD & CD). destruct (list_back SLayer _ ltac:(discriminate) L) as (lk & -> & EL & RL & CL).
  destruct (list_back SMapDef _ ltac:(discriminate) M) as (mk & -> & EM & RM & CM). destruct (list_back SPosition _ ltac:(discriminate) PO) as (pk & -> & EP & RP & CP).
  destruct (list_back SSymdef _ ltac:(discriminate) SY) as (sk & -> & ES & RS & CS). cbn [bind].
  eexists _, (mkScene [] [] (map sk_back dk) (map sk_back lk) (map sk_back mk) (map sk_back pk) (map sk_back sk) []). split; [reflexivity|]. split; [|split; [|auto]].
  - unfold read_raw, in_child. cbn [child_named].
    change (eqb_bytes T"UserData" T"UserData") with true. change (eqb_bytes T"UserData" T"Scene") with false. change (eqb_bytes T"Scene" T"Scene") with true.
    change (eqb_bytes T"Layers" T"AUXData") with false. change (eqb_bytes T"AUXData" T"AUXData") with true. change (eqb_bytes T"Layers" T"Layers") with true. cbv iota.
    unfold read_data. rewrite (selements dk RD). cbn [bind]. rewrite (kinds_read false "Data" SProvider dk eq_refl ltac:(discriminate) RD CD). cbn [bind child_named].
    change (eqb_bytes T"Layers" T"AUXData") with false. change (eqb_bytes T"AUXData" T"AUXData") with true. change (eqb_bytes T"Layers" T"Layers") with true. cbv iota.
    rewrite (selements_app mk _ RM), (selements_app pk _ RP), (selements sk RS). cbn [bind].
    rewrite (aux_maps mk _ _ RM CM), (aux_positions pk _ _ RP CP). rewrite <- (app_nil_r (map sel sk)), (aux_symdefs sk _ _ RS CS). cbn [read_aux bind].
    rewrite (selements lk RL). cbn [bind]. rewrite (kinds_read true "Layer" SLayer lk eq_refl ltac:(reflexivity) RL CL). cbn [bind app rw_data rw_symdefs rw_positions rw_classes rw_maps rw_layers].
    unfold raw_of. cbn [sc_data sc_layers sc_maps sc_positions sc_symdefs]. repeat f_equal. rewrite map_map. clear -RS. induction RS as [|k sk (_ & S & _) R IH]; [reflexivity|].
    cbn [map]. rewrite IH. f_equal. unfold keyed_kid. now rewrite (same_guid_text _ _ S).
  - unfold same_lists. cbn [sc_data sc_layers sc_maps sc_positions sc_symdefs]. rewrite <- ED, <- EL, <- EM, <- EP, <- ES. repeat split; now apply same_back.
Qed.

(** ** Objects that are the same for references *)
Lemma same_text o o' f : same_sobj o o' -> forall t, get f (smembers o') = VTxt t <-> get f (smembers o) = VTxt t.
Proof. intros [c vs vs' kss kss' E _] t. cbn [smembers]. destruct (E f) as [-> |K]; [tauto|]. destruct (get f vs), (get f vs'); try contradiction; split; discriminate. Qed.
Lemma same_uuid o o' f : same_sobj o o' -> forall t, get f (smembers o') = VUuid t <-> get f (smembers o) = VUuid t.
Proof. intros [c vs vs' kss kss' E _] t. cbn [smembers]. destruct (E f) as [-> |K]; [tauto|]. destruct (get f vs), (get f vs'); try contradiction; split; discriminate. Qed.
Lemma same_class o o' : same_sobj o o' -> sclass o' = sclass o.
Proof. now intros []. Qed.
Lemma same_guid o o' s : same_sobj o o' -> guid_is o' s <-> guid_is o s.
Proof. intros H. unfold guid_is. split; intros (u & G & E); exists u; (split; [|exact E]); now apply (same_uuid o o'). Qed.
Lemma F2_in_r {A B} (R : A -> B -> Prop) l m y : Forall2 R l m -> In y m -> exists x, In x l /\ R x y.
Proof. induction 1 as [|a b l m H _ IH]; intros []; [subst; exists a; split; [now left|exact H]|]. destruct (IH H0) as (x & I & Rx). exists x. split; [now right|exact Rx]. Qed.
Lemma F2_in_l {A B} (R : A -> B -> Prop) l m x : Forall2 R l m -> In x l -> exists y, In y m /\ R x y.
Proof. induction 1 as [|a b l m H _ IH]; intros []; [subst; exists b; split; [now left|exact H]|]. destruct (IH H0) as (y & I & Ry). exists y. split; [now right|exact Ry]. Qed.
Lemma same_child p p' k' : same_sobj p p' -> child k' p' -> exists k, child k p /\ same_sobj k k'.
Proof.
  intros H C. destruct H as [c vs vs' kss kss' _ K]. inversion C as [? ? ? ks ? I1 I2]; subst. destruct (F2_in_r _ _ _ _ K I1) as (ks0 & J1 & K1).
  destruct (F2_in_r _ _ _ _ K1 I2) as (o & J2 & S). exists o. split; [econstructor; eassumption|exact S].
Qed.
Lemma same_child_l p p' k : same_sobj p p' -> child k p -> exists k', child k' p' /\ same_sobj k k'.
Proof.
  intros H C. destruct H as [c vs vs' kss kss' _ K]. inversion C as [? ? ? ks ? I1 I2]; subst. destruct (F2_in_l _ _ _ _ K I1) as (ks0 & J1 & K1).
  destruct (F2_in_l _ _ _ _ K1 I2) as (o & J2 & S). exists o. split; [econstructor; eassumption|exact S].
Qed.
Lemma same_inside o' p' : inside o' p' -> forall p, same_sobj p p' -> exists o, inside o p /\ same_sobj o o'.
Proof.
  induction 1 as [o|o k p I IH C]; intros q H; [exists q; split; [constructor|exact H]|]. destruct (same_child q p k H C) as (k0 & C0 & S0).
  destruct (IH k0 S0) as (x & Ix & Sx). exists x. split; [econstructor; eassumption|exact Sx].
Qed.
Lemma same_inside_l o p : inside o p -> forall p', same_sobj p p' -> exists o', inside o' p' /\ same_sobj o o'.
Proof.
  induction 1 as [o|o k p I IH C]; intros q H; [exists q; split; [constructor|exact H]|]. destruct (same_child_l p q k H C) as (k0 & C0 & S0).
  destruct (IH k0 S0) as (x & Ix & Sx). exists x. split; [econstructor; eassumption|exact Sx].
Qed.
Lemma same_within o' l l' : Forall2 same_sobj l l' -> within_any o' l' -> exists o, within_any o l /\ same_sobj o o'.
Proof. intros F (p' & I & J). destruct (F2_in_r _ _ _ _ F I) as (p & Ip & S). destruct (same_inside o' p' J p S) as (o & Io & So). exists o. split; [exists p; auto|exact So]. Qed.
Lemma same_within_l o l l' : Forall2 same_sobj l l' -> within_any o l -> exists o', within_any o' l' /\ same_sobj o o'.
Proof. intros F (p & I & J). destruct (F2_in_l _ _ _ _ F I) as (p' & Ip & S). destruct (same_inside_l o p J p' S) as (o' & Io & So). exists o'. split; [exists p'; auto|exact So]. Qed.
Definition ev_same (a b : event) : Prop := match a, b with Met o, Met o' | Left o, Left o' => same_sobj o o' | _, _ => False end.
Lemma same_walk o : forall o', same_sobj o o' -> Forall2 ev_same (walk o) (walk o').
Proof.
  induction o as [c vs kss IH] using sobj_induction. intros o' H. inversion H as [? ? vs' ? kss' E K]; subst. cbn [walk]. constructor; [exact H|]. apply Forall2_app; [|constructor; [exact H|constructor]].
  clear -IH K. induction K as [|ks ks' kss kss' K1 K2 IHK]; [constructor|]. inversion IH as [|? ? I1 I2]; subst. cbn [flat_map]. apply Forall2_app; [|exact (IHK I2)].
  clear -I1 K1. induction K1; [constructor|]. inversion I1; subst. cbn [flat_map]. apply Forall2_app; auto.
Qed.
Lemma same_walks l l' : Forall2 same_sobj l l' -> Forall2 ev_same (flat_map walk l) (flat_map walk l').
Proof. induction 1; [constructor|]. cbn [flat_map]. apply Forall2_app; [now apply same_walk|assumption]. Qed.
Lemma same_refers f o o' (l l' : sobj -> Prop) : same_sobj o o' -> (forall p, l p -> exists p', l' p' /\ same_sobj p p') -> refers f o l -> refers f o' l'.
Proof.
  intros S H R s G. apply (same_text o o' f S) in G. destruct (R s G) as [-> |(p & Lp & Gp)]; [now left|right]. destruct (H p Lp) as (p' & Lp' & Sp). exists p'. split; [exact Lp'|].
  now apply (same_guid p p').
Qed.
Lemma same_no f o o' : same_sobj o o' -> no_reference f o -> no_reference f o'.
Proof. intros S R s G. apply (same_text o o' f S) in G. exact (R s G). Qed.
Lemma F2_split {A B} (R : A -> B -> Prop) l m b y c : Forall2 R l m -> m = b ++ y :: c -> exists b0 x c0, l = b0 ++ x :: c0 /\ Forall2 R b0 b /\ R x y /\ Forall2 R c0 c.
Proof.
  intros F ->. apply Forall2_app_inv_r in F as (b0 & r & F1 & F2 & ->). inversion F2 as [|x ? c0 ? Rx F3]; subst. exists b0, x, c0. auto.
Qed.
Lemma has_guid o : sobj_ok o -> In "fGuid"%string (map fst (sfields (sclass o))) -> exists u, uuid_ok u /\ get "fGuid" (smembers o) = VUuid u.
Proof.
  intros H I. destruct H as [c vs kss (M1 & _) _ _ _]. cbn [sclass smembers] in *.
  assert (J : In ("fGuid"%string, SGuid, WIfGuid) (flat_map entry (swrites c))).
  { clear -I. destruct c; cbn in I; try (exfalso; intuition discriminate); now left. }
  destruct (M1 _ _ _ J) as (V & _). destruct (get "fGuid" vs); try contradiction V. eauto.
Qed.
Lemma refs_same s s' : listed s -> refs_ok s -> same_lists s s' -> refs_ok s'.
Proof.
  intros LI R (_ & L & M & P & S). destruct R as [R1 R2 R3 R4 R5 R6 R7 R8].
  assert (AUX : Forall2 same_sobj (sc_maps s ++ sc_positions s ++ sc_symdefs s) (sc_maps s' ++ sc_positions s' ++ sc_symdefs s')) by (repeat apply Forall2_app; assumption).
  constructor.
  - intros o' W. destruct (same_within o' _ _ (Forall2_app L AUX) W) as (o & Wo & So). exact (same_no _ o o' So (R1 o Wo)).
  - intros o' W. destruct (same_within o' _ _ L W) as (o & Wo & So). refine (same_refers _ o o' _ _ So _ (R2 o Wo)). intros p (C & Wp).
    destruct (same_within_l p _ _ L Wp) as (p' & Wp' & Sp). exists p'. split; [split; [now rewrite (same_class _ _ Sp)|exact Wp']|exact Sp].
  - intros o' W. destruct (same_within o' _ _ L W) as (o & Wo & So). refine (same_refers _ o o' _ _ So _ (R3 o Wo)). intros p Ip.
    destruct (F2_in_l _ _ _ _ P Ip) as (p' & Ip' & Sp). eauto.
  - intros before o' after E. destruct (F2_split _ _ _ _ _ _ (same_walks _ _ L) E) as (b0 & [o|o] & c0 & E0 & B0 & So & _); [|contradiction So].
    refine (same_refers _ o o' _ _ So _ (R4 b0 o c0 E0)). intros p (Ip & Jp). destruct (F2_in_l _ _ _ _ B0 Jp) as ([x|x] & Ix & Sx); [contradiction Sx|]. exists x.
    split; [split; [now rewrite (same_class _ _ Sx)|exact Ix]|exact Sx].
  - intros o' W. destruct (same_within o' _ _ AUX W) as (o & Wo & So). exact (same_no _ o o' So (R5 o Wo)).
  - intros o' p' W C CL. destruct (same_within p' _ _ (Forall2_app L S) W) as (p & Wp & Sp). destruct (same_child p p' o' Sp C) as (o & Co & So).
    rewrite (same_class _ _ So) in CL. specialize (R6 o p Wp Co CL). rewrite (same_class _ _ Sp).
    destruct (in_scene (sclass p) || match sclass p with SSymdef => true | _ => false end).
    + destruct R6 as (t & d & G & Id & Gd). destruct (F2_in_l _ _ _ _ S Id) as (d' & Id' & Sd). exists t, d'. split; [now apply (same_text o o')|]. split; [exact Id'|]. now apply (same_guid d d').
    + exact (same_no _ o o' So R6).
  - destruct LI as (_ & _ & _ & _ & _ & _ & K). replace (map (fun d => get "fGuid" (smembers d)) (sc_symdefs s')) with (map (fun d => get "fGuid" (smembers d)) (sc_symdefs s)); [exact R7|].
    clear -S K. induction S as [|d d' l l' Sd S IH]; [reflexivity|]. inversion K as [|? ? (C1 & K1) K2]; subst. cbn [map]. f_equal; [|exact (IH K2)].
    destruct (has_guid d K1) as (u & _ & G); [rewrite C1; cbn; tauto|]. rewrite G. symmetry. now apply (same_uuid d d').
  - destruct R8 as [(o & W & I) |R8].
    + left. destruct (same_within_l o _ _ L W) as (o' & W' & So). exists o'. split; [exact W'|]. now rewrite (same_class _ _ So).
    + right. intros d' o' Id C. destruct (F2_in_r _ _ _ _ S Id) as (d & Idd & Sd). destruct (same_child d d' o' Sd C) as (o & Co & So). rewrite (same_class _ _ So). exact (R8 d o Idd Co).
Qed.

(** ** What is kept of an object *)
Inductive tame : sobj -> Prop :=
| tame_i c vs kss : Forall2 in_rslot (sslots c) kss -> (In "fGuid"%string (map fst (sfields c)) -> exists u, uuid_ok u /\ get "fGuid" vs = VUuid u) ->
    (c <> SSymbol -> forall s, get "fSymDef" vs <> VTxt s) -> Forall (Forall tame) kss -> tame (SObj c vs kss).
Lemma same_slot s ks ks' : Forall2 same_sobj ks ks' -> in_rslot s ks -> in_rslot s ks'.
Proof.
  intros F (I & L). split.
  - clear L. induction F as [|o o' ks ks' So F IH]; [constructor|]. inversion I; subst. constructor; [now rewrite (same_class _ _ So)|auto].
  - rewrite <- (Forall2_len _ _ _ F). exact L.
Qed.
Lemma same_tame o : forall o', sobj_ok o -> same_sobj o o' -> tame o'.
Proof.
  induction o as [c vs kss IH] using sobj_induction. intros o' OK S. inversion S as [? ? vs' ? kss' E K]; subst. inversion OK as [? ? ? M F _ KO]; subst. constructor.
  - clear -F K. revert kss' K. induction F as [|s ks ss kss F1 F2 IHF]; intros kss' K; inversion K; subst; constructor; [eapply same_slot; eassumption|auto].
  - intros I. destruct (has_guid _ OK I) as (u & U & G). exists u. split; [exact U|]. now apply (same_uuid _ _ _ S).
  - intros NS s G. apply (same_text _ _ _ S) in G. cbn [smembers] in G. destruct M as (_ & _ & M3). rewrite M3 in G; [discriminate G|].
    clear -NS. destruct c; try congruence; cbn; intuition discriminate.
  - clear -IH KO K. revert kss' K. induction IH as [|ks kss I1 _ IH2]; intros kss' K; inversion K as [|? ks' ? ? K1 K2]; subst; constructor.
    + inversion KO as [|? ? O1 _]; subst. clear -I1 O1 K1. revert ks' K1. induction I1; intros ks' K1; inversion K1; subst; constructor; inversion O1; subst; auto.
    + inversion KO; subst. auto.
Qed.
Lemma tame_child p k : tame p -> child k p -> tame k.
Proof. intros H C. inversion C as [? ? ? ks ? I1 I2]; subst. inversion H as [? ? ? _ _ _ K]; subst. rewrite Forall_forall in K. specialize (K ks I1). rewrite Forall_forall in K. auto. Qed.
Lemma tame_inside o p : inside o p -> tame p -> tame o.
Proof. induction 1 as [|o k p I IH C]; intros H; [exact H|]. apply IH. exact (tame_child p k H C). Qed.

(** ** Nothing is changed *)
Lemma map2_id (g : sobj -> sobj) kss : (forall ks o, In ks kss -> In o ks -> g o = o) -> map (map g) kss = kss.
Proof.
  intros H. induction kss as [|ks kss IH]; [reflexivity|]. cbn [map]. rewrite IH by (intros a b I; apply H; now right). f_equal.
  assert (H1 : forall o, In o ks -> g o = o) by (intros o; apply (H ks o); now left). clear -H1. induction ks as [|o ks IH]; [reflexivity|]. cbn [map].
  rewrite (H1 o) by (now left). rewrite IH; [reflexivity|]. intros x I. apply H1. now right.
Qed.
Lemma map1_id (g : sobj -> sobj) ks : (forall o, In o ks -> g o = o) -> map g ks = ks.
Proof. intros H1. induction ks as [|o ks IH]; [reflexivity|]. cbn [map]. rewrite (H1 o) by (now left). rewrite IH; [reflexivity|]. intros x I. apply H1. now right. Qed.
Lemma map_obj_id f o : (forall x, inside x o -> f (sclass x) (smembers x) = smembers x) -> map_obj f o = o.
Proof.
  induction o as [c vs kss IH] using sobj_induction. intros H. cbn [map_obj]. pose proof (H (SObj c vs kss) (in_self _)) as H0. cbn [sclass smembers] in H0. rewrite H0. f_equal. apply map2_id.
  intros ks o I J. rewrite Forall_forall in IH. specialize (IH ks I). rewrite Forall_forall in IH. apply IH; [exact J|]. intros x X. apply H. econstructor; [exact X|]. econstructor; eassumption.
Qed.
Lemma clear_id f o : no_reference f o -> clear f (smembers o) = smembers o.
Proof. intros H. unfold clear. destruct (get f (smembers o)) eqn:E; try reflexivity. pose proof (H s E) as ->. apply put_same; [exact E|discriminate]. Qed.
Lemma relink_id f same texts o : (forall s, get f (smembers o) = VTxt s -> s = [] \/ first_of same s texts = s) -> relink f same texts (smembers o) = smembers o.
Proof.
  intros H. unfold relink. destruct (get f (smembers o)) eqn:E; try reflexivity. apply put_same; [|discriminate]. rewrite E. f_equal.
  destruct (H s eq_refl) as [-> |Q]; [reflexivity|now rewrite Q].
Qed.
Lemma upper_ascii l : make_upper l = map upper1 l.
Proof. reflexivity. Qed.
Lemma uuid_txeq u v : uuid_ok u -> uuid_ok v -> txeq (write_uuid u) (write_uuid v) = true -> u = v.
Proof.
  intros U V E. apply txeq_iff in E. rewrite !upper_ascii in E. rewrite <- !uuid_text_write, !uuid_text_upper in E by assumption.
  apply (C27_text_injective u v false U V). now rewrite !to_string_text.
Qed.
Definition has_uid (o : sobj) : Prop := exists u, uuid_ok u /\ get "fGuid" (smembers o) = VUuid u.
Lemma uid_text o u : get "fGuid" (smembers o) = VUuid u -> guid_text o = write_uuid u.
Proof. unfold guid_text. now intros ->. Qed.
Lemma first_found s l : Forall has_uid l -> (exists p, In p l /\ guid_is p s) -> first_of txeq s (map guid_text l) = s.
Proof.
  intros F (p & I & u & G & E). rewrite Forall_forall in F. destruct (F p I) as (u' & U & G'). rewrite G in G'. injection G' as <-. rewrite uuid_text_write in E by exact U. subst s.
  unfold first_of. destruct (is_empty (write_uuid u)) eqn:EM; [destruct (write_uuid u); [reflexivity|discriminate EM]|].
  destruct (find (txeq (write_uuid u)) (map guid_text l)) as [t|] eqn:FI.
  - apply find_some in FI as (J & TE). apply in_map_iff in J as (q & <- & J). destruct (F q J) as (v & V & Gq). rewrite (uid_text q v Gq) in *. now rewrite (uuid_txeq u v U V TE).
  - apply find_none with (x := write_uuid u) in FI.
    + exfalso. assert (txeq (write_uuid u) (write_uuid u) = true) by (now apply txeq_iff). congruence.
    + apply in_map_iff. exists p. split; [exact (uid_text p u G)|exact I].
Qed.

(** ** The walk *)
Definition lefts (e : event) : list sobj := match e with Left p => if in_scene (sclass p) then [p] else [] | Met _ => [] end.
Lemma scene_objs_eq c vs kss : scene_objs (SObj c vs kss) = flat_map (flat_map scene_objs) kss ++ (if in_scene c then [SObj c vs kss] else []).
Proof. reflexivity. Qed.
Lemma flat_map_flat {A B C} (f : B -> list C) (g : A -> list B) l : flat_map f (flat_map g l) = flat_map (fun x => flat_map f (g x)) l.
Proof. induction l as [|x l IH]; [reflexivity|]. cbn [flat_map]. now rewrite flat_map_app, IH. Qed.
Lemma flat_map_same {A B} (f g : A -> list B) l : Forall (fun x => f x = g x) l -> flat_map f l = flat_map g l.
Proof. induction 1; cbn [flat_map]; congruence. Qed.
Lemma walked o : scene_objs o = flat_map lefts (walk o).
Proof.
  induction o as [c vs kss IH] using sobj_induction. rewrite scene_objs_eq. cbn [walk flat_map lefts app]. rewrite flat_map_app. cbn [flat_map lefts sclass]. rewrite app_nil_r. f_equal.
  rewrite flat_map_flat. apply flat_map_same. eapply Forall_impl; [|exact IH]. intros ks H. cbv beta in *. rewrite flat_map_flat. now apply flat_map_same.
Qed.
Lemma walked_all l : flat_map scene_objs l = flat_map lefts (flat_map walk l).
Proof. rewrite flat_map_flat. apply flat_map_same, Forall_forall. intros o _. apply walked. Qed.
Lemma walk_inside x o : In (Left x) (walk o) <-> inside x o.
Proof.
  induction o as [c vs kss IH] using sobj_induction. cbn [walk]. split.
  - intros [E|I]; [discriminate E|]. apply in_app_or in I as [I|[E|[]]]; [|injection E as <-; constructor]. apply in_flat_map in I as (ks & I1 & I). apply in_flat_map in I as (k & I2 & I).
    rewrite Forall_forall in IH. specialize (IH ks I1). rewrite Forall_forall in IH. econstructor; [apply (IH k I2), I|econstructor; eassumption].
  - intros H. right. apply in_or_app. inversion H as [|? k ? I C]; subst; [right; now left|left]. inversion C as [? ? ? ks ? I1 I2]; subst.
    rewrite Forall_forall in IH. specialize (IH ks I1). rewrite Forall_forall in IH. apply in_flat_map. exists ks. split; [exact I1|]. apply in_flat_map. exists k. split; [exact I2|].
    now apply (IH k I2).
Qed.
Lemma walk_within x l : In (Left x) (flat_map walk l) <-> within_any x l.
Proof. rewrite in_flat_map. split; intros (o & I & J); exists o; (split; [exact I|]); now apply walk_inside. Qed.
Lemma objs_within x l : In x (flat_map scene_objs l) <-> within_any x l /\ in_scene (sclass x) = true.
Proof.
  rewrite walked_all, in_flat_map. split.
  - intros ([o|o] & I & J); [destruct J|]. cbn [lefts] in J. destruct (in_scene (sclass o)) eqn:E; [|destruct J]. destruct J as [<- |[]]. split; [now apply walk_within|exact E].
  - intros (W & E). exists (Left x). split; [now apply walk_within|]. cbn [lefts]. rewrite E. now left.
Qed.

(** ** Multipatch parents *)
Fixpoint multi_list (seen : list (list N)) (l : list sobj) : list sobj * list (list N) :=
  match l with [] => ([], seen) | k :: r => let '(k', s1) := multi seen k in let '(r', s2) := multi_list s1 r in (k' :: r', s2) end.
Fixpoint multi_slots (seen : list (list N)) (l : list (list sobj)) : list (list sobj) * list (list N) :=
  match l with [] => ([], seen) | ks :: r => let '(ks', s1) := multi_list seen ks in let '(r', s2) := multi_slots s1 r in (ks' :: r', s2) end.
Lemma multi_eq seen c vs kss : multi seen (SObj c vs kss) =
  let '(kss', seen') := multi_slots seen kss in (SObj c (keep_multi seen vs) kss', if in_scene c then seen' ++ [guid_text (SObj c vs kss)] else seen').
Proof. reflexivity. Qed.
Definition ids (l : list event) : list (list N) := map guid_text (flat_map lefts l).
Lemma ids_app a b : ids (a ++ b) = ids a ++ ids b.
Proof. unfold ids. now rewrite flat_map_app, map_app. Qed.
Definition kept_in (seen : list (list N)) (l : list event) : Prop :=
  forall before x after, l = before ++ Met x :: after -> keep_multi (seen ++ ids before) (smembers x) = smembers x.
Lemma kept_app seen a b : kept_in seen (a ++ b) -> kept_in seen a /\ kept_in (seen ++ ids a) b.
Proof.
  intros H. split.
  - intros before x after ->. apply (H before x (after ++ b)). now rewrite <- app_assoc.
  - intros before x after ->. rewrite <- app_assoc, <- ids_app. apply (H _ x after). now rewrite <- app_assoc.
Qed.
Lemma multi_id o : forall seen, kept_in seen (walk o) -> multi seen o = (o, seen ++ ids (walk o)).
Proof.
  induction o as [c vs kss IH] using sobj_induction. intros seen K. rewrite multi_eq. cbn [walk] in *.
  assert (K0 : keep_multi seen vs = vs). { specialize (K [] (SObj c vs kss) _ eq_refl). cbn [ids flat_map map] in K. now rewrite app_nil_r in K. }
  destruct (kept_app seen [Met (SObj c vs kss)] (flat_map (flat_map walk) kss ++ [Left (SObj c vs kss)]) K) as (_ & K1). cbn [ids flat_map lefts map app] in K1. rewrite app_nil_r in K1.
  destruct (kept_app _ _ _ K1) as (K2 & _).
  assert (G : forall l seen, Forall (Forall (fun o => forall seen, kept_in seen (walk o) -> multi seen o = (o, seen ++ ids (walk o)))) l ->
    kept_in seen (flat_map (flat_map walk) l) -> multi_slots seen l = (l, seen ++ ids (flat_map (flat_map walk) l))).
  { clear. induction l as [|ks l IHl]; intros seen F K; [cbn; now rewrite app_nil_r|]. inversion F as [|? ? F1 F2]; subst. cbn [flat_map multi_slots] in *. destruct (kept_app _ _ _ K) as (K1 & K2).
    assert (G1 : forall m seen, Forall (fun o => forall seen, kept_in seen (walk o) -> multi seen o = (o, seen ++ ids (walk o))) m ->
      kept_in seen (flat_map walk m) -> multi_list seen m = (m, seen ++ ids (flat_map walk m))).
    { clear. induction m as [|o m IHm]; intros seen F K; [cbn; now rewrite app_nil_r|]. inversion F as [|? ? F1 F2]; subst. cbn [flat_map multi_list] in *.
      destruct (kept_app _ _ _ K) as (K1 & K2). rewrite (F1 seen K1), (IHm _ F2 K2), ids_app, app_assoc. reflexivity. }
    rewrite (G1 ks seen F1 K1), (IHl _ F2 K2), ids_app, app_assoc. reflexivity. }
  rewrite (G kss seen IH K2), K0. f_equal. change (Met (SObj c vs kss) :: flat_map (flat_map walk) kss ++ [Left (SObj c vs kss)]) with ([Met (SObj c vs kss)] ++ flat_map (flat_map walk) kss ++ [Left (SObj c vs kss)]).
  rewrite !ids_app. cbn [ids flat_map lefts map app sclass]. destruct (in_scene c); cbn [app map]; rewrite ?app_nil_r; [now rewrite app_assoc|reflexivity].
Qed.
Lemma multis_id l : forall seen, kept_in seen (flat_map walk l) -> multis seen l = l.
Proof.
  induction l as [|o l IH]; intros seen K; [reflexivity|]. cbn [flat_map multis] in *. destruct (kept_app _ _ _ K) as (K1 & K2). rewrite (multi_id o seen K1). cbv iota beta. now rewrite (IH _ K2).
Qed.
Lemma keep_id seen o : (forall s, get "fMultipatchObj" (smembers o) = VTxt s -> s = [] \/ In s seen) -> keep_multi seen (smembers o) = smembers o.
Proof.
  intros H. unfold keep_multi. destruct (get "fMultipatchObj" (smembers o)) eqn:E; try reflexivity. destruct (existsb (eqb_bytes s) seen) eqn:X; [reflexivity|].
  destruct (H s eq_refl) as [-> |I]; [apply put_same; [exact E|discriminate]|]. exfalso. assert (existsb (eqb_bytes s) seen = true); [|congruence]. apply existsb_exists. exists s. split; [exact I|apply eqb_bytes_refl].
Qed.

(** ** Classes inside classes *)
(** Classes that a geometry, a symbol definition or a mapping holds: no scene objects among them. *)
Definition low (c : scls) : bool :=
  match c with
  | SGeometry3D | SSymbol | SCommand | SAlignment | SOverwrite | SConnection | SSource | SEntry => true
  | _ => false
  end.
Lemma low_closed c : forallb (fun s => forallb (fun k => implb (low c) (low (snd k))) (rs_kinds s)) (sslots c) = true.
Proof. destruct c; vm_compute; reflexivity. Qed.
Lemma low_first c : match sslots c with s :: _ => forallb (fun k => low (snd k)) (rs_kinds s) | [] => true end = true.
Proof. destruct c; vm_compute; reflexivity. Qed.
Definition geometry (c : scls) : bool := match c with SSymbol | SGeometry3D => true | _ => false end.
Lemma in_kinds p k : tame p -> child k p -> exists s, In s (sslots (sclass p)) /\ In (sclass k) (map snd (rs_kinds s)).
Proof.
  intros H C. inversion C as [c vs kss ks o I1 I2]; subst. inversion H as [? ? ? F _ _ _]; subst. cbn [sclass]. destruct (F2_in_r _ _ _ _ F I1) as (s & Is & K & _). exists s. split; [exact Is|].
  rewrite Forall_forall in K. auto.
Qed.
Lemma low_inside x p : inside x p -> tame p -> low (sclass p) = true -> low (sclass x) = true.
Proof.
  induction 1 as [|x k p I IH C]; intros TP L; [exact L|]. apply IH; [exact (tame_child p k TP C)|]. destruct (in_kinds p k TP C) as (s & Is & Ik). pose proof (low_closed (sclass p)) as LC.
  rewrite forallb_forall in LC. specialize (LC s Is). rewrite forallb_forall in LC. apply in_map_iff in Ik as (e & <- & Ie). specialize (LC e Ie). cbv beta in LC. now rewrite L in LC.
Qed.
Lemma low_plain c : low c = true -> in_scene c || match c with SSymdef => true | _ => false end = false.
Proof. destruct c; try discriminate; reflexivity. Qed.
Lemma slot0_low c vs geos r k : tame (SObj c vs (geos :: r)) -> In k geos -> low (sclass k) = true.
Proof.
  intros H I. inversion H as [? ? ? F _ _ _]; subst. pose proof (low_first c) as L. destruct (sslots c) as [|s ss]; inversion F as [|? ? ? ? (K & _) _]; subst.
  rewrite Forall_forall in K. specialize (K k I). apply in_map_iff in K as (e & <- & Ie). rewrite forallb_forall in L. exact (L e Ie).
Qed.
Lemma not_symbol o : tame o -> sclass o <> SSymbol -> no_reference "fSymDef" o.
Proof. intros H N. destruct H as [c vs kss _ _ S _]. intros s G. destruct (S N s G). Qed.

Section Symbols.
Variable same_key : list N -> list N -> bool.
Hypothesis key_refl : forall t, same_key t t = true.
Hypothesis key_txeq : forall a b, same_key a b = true -> txeq a b = true.
Fixpoint entries (i : nat) (l : list sobj) : symmap := match l with [] => [] | d :: r => (guid_text d, Some i) :: entries (S i) r end.
Lemma map_set_new k v m : (forall e, In e m -> same_key k (fst e) = false) -> map_set same_key k v m = m ++ [(k, v)].
Proof.
  induction m as [|(k', w) m IH]; intros H; [reflexivity|]. cbn [map_set app]. pose proof (H (k', w) ltac:(now left)) as H0. cbn [fst] in H0. rewrite H0. rewrite IH; [reflexivity|]. intros e I. apply H. now right.
Qed.
Lemma key_guid d d' : has_uid d -> has_uid d' -> same_key (guid_text d) (guid_text d') = true -> get "fGuid" (smembers d) = get "fGuid" (smembers d').
Proof. intros (u & U & G) (v & V & H) K. rewrite (uid_text d u G), (uid_text d' v H) in K. apply key_txeq, uuid_txeq in K; [|exact U|exact V]. congruence. Qed.
Lemma build_entries l : forall i m, Forall has_uid l -> NoDup (map (fun d => get "fGuid" (smembers d)) l) ->
  (forall e d, In e m -> In d l -> same_key (guid_text d) (fst e) = false) ->
  build same_key i (map (fun o => (guid_text o, o)) l) m = m ++ entries i l.
Proof.
  induction l as [|d l IH]; intros i m U ND H; [cbn [map build entries]; now rewrite app_nil_r|]. inversion U as [|? ? U1 U2]; inversion ND as [|? ? N1 N2]; subst. cbn [map build entries].
  rewrite map_set_new by (intros e I; apply (H e d I); now left). rewrite IH; [now rewrite <- app_assoc|exact U2|exact N2|]. intros e d' I J. apply in_app_or in I as [I|[<- |[]]].
  - apply (H e d' I). now right.
  - cbn [fst]. destruct (same_key (guid_text d') (guid_text d)) eqn:E; [|reflexivity]. exfalso. apply N1. rewrite Forall_forall in U2. apply in_map_iff. exists d'. split; [|exact J].
    exact (key_guid d' d (U2 d' J) U1 E).
Qed.
Lemma find_entries l d : forall i, Forall has_uid l -> NoDup (map (fun d => get "fGuid" (smembers d)) l) -> In d l ->
  exists j, map_find same_key (guid_text d) (entries i l) = Some (Some (i + j)%nat) /\ nth_error l j = Some d.
Proof.
  induction l as [|x l IH]; intros i U ND I; [destruct I|]. inversion U as [|? ? U1 U2]; inversion ND as [|? ? N1 N2]; subst. cbn [entries map_find]. destruct I as [-> |I].
  - rewrite key_refl. exists O. rewrite Nat.add_0_r. split; reflexivity.
  - destruct (same_key (guid_text d) (guid_text x)) eqn:E.
    + exfalso. apply N1. rewrite Forall_forall in U2. rewrite <- (key_guid d x (U2 d I) U1 E). apply in_map_iff. eauto.
    + destruct (IH (S i) U2 N2 I) as (j & F & G). exists (S j). rewrite Nat.add_succ_r. split; [exact F|exact G].
Qed.
Lemma entries_in e i l : In e (entries i l) -> exists j d, snd e = Some (i + j)%nat /\ nth_error l j = Some d.
Proof.
  revert i. induction l as [|x l IH]; intros i I; [destruct I|]. destruct I as [<- |I]; [exists O, x; rewrite Nat.add_0_r; split; reflexivity|].
  destruct (IH (S i) I) as (j & d & E & G). exists (S j), d. rewrite Nat.add_succ_r. split; [exact E|exact G].
Qed.
Variable s : scene.
Hypothesis TL : Forall tame (sc_layers s).
Hypothesis TS : Forall tame (sc_symdefs s).
Hypothesis KS : Forall (fun d => sclass d = SSymdef) (sc_symdefs s).
Hypothesis KL : Forall (fun d => sclass d = SLayer) (sc_layers s).
Hypothesis R : refs_ok s.
Let defs := sc_symdefs s.
Let m := entries 0 defs.
Lemma tame_within o l : Forall tame l -> within_any o l -> tame o.
Proof. intros F (p & I & J). rewrite Forall_forall in F. exact (tame_inside o p J (F p I)). Qed.
Lemma tame_uid o : tame o -> In "fGuid"%string (map fst (sfields (sclass o))) -> has_uid o.
Proof. intros H I. destruct H as [c vs kss _ G _ _]. exact (G I). Qed.
Lemma defs_uid : Forall has_uid defs.
Proof. apply Forall_forall. intros d I. apply tame_uid; [rewrite Forall_forall in TS; now apply TS|]. rewrite Forall_forall in KS. rewrite (KS d I). cbn. tauto. Qed.
Lemma linked o p : within_any p (sc_layers s ++ sc_symdefs s) -> child o p -> sclass o = SSymbol -> in_scene (sclass p) || match sclass p with SSymdef => true | _ => false end = true ->
  exists t, get "fSymDef" (smembers o) = VTxt t /\ found same_key defs m t = t /\ exists i, map_find same_key t m = Some (Some i).
Proof.
  intros W C S P. pose proof (symbols_found _ R o p W C S) as H. rewrite P in H. destruct H as (t & d & G & I & u & GU & ->). exists (uuid_text false u). split; [exact G|].
  destruct (find_entries defs d 0 defs_uid (definitions _ R) I) as (j & F & NE). pose proof defs_uid as DU. rewrite Forall_forall in DU. destruct (DU d I) as (v & V & GV). rewrite GU in GV. injection GV as <-.
  pose proof (uid_text d u GU) as GT. rewrite GT in F. rewrite uuid_text_write by exact V. cbn [plus] in F. split; [|unfold m; eauto]. unfold found, m. rewrite F, NE. exact GT.
Qed.
Lemma unlinked o p : tame o -> within_any p (sc_layers s ++ sc_symdefs s) -> child o p -> in_scene (sclass p) || match sclass p with SSymdef => true | _ => false end = false -> no_reference "fSymDef" o.
Proof.
  intros TO W C P. assert (D : sclass o = SSymbol \/ sclass o <> SSymbol) by (destruct (sclass o); (now left) || (right; discriminate)). destruct D as [D|D]; [|now apply not_symbol].
  pose proof (symbols_found _ R o p W C D) as H. now rewrite P in H.
Qed.
Lemma child_within o p l : within_any p l -> child o p -> within_any o l.
Proof.
  intros (q & I & J) C. exists q. split; [exact I|]. clear I. induction J as [q|x k q I IH D]; [econstructor; [constructor|exact C]|]. econstructor; [exact (IH C)|exact D].
Qed.
Lemma tame_all p : within_any p (sc_layers s ++ sc_symdefs s) -> tame p.
Proof. apply tame_within. apply Forall_app. auto. Qed.
Lemma clear_low p : within_any p (sc_layers s ++ sc_symdefs s) -> low (sclass p) = true -> forall x, inside x p -> x = p \/ no_reference "fSymDef" x.
Proof.
  intros W L x I. revert W L. induction I as [x|x k p I IH C]; intros W L; [now left|right]. assert (WK := child_within k p _ W C). assert (TP := tame_all p W).
  assert (LK : low (sclass k) = true). { apply (low_inside k p); [econstructor; [constructor|exact C]|exact TP|exact L]. }
  destruct (IH WK LK) as [-> |N]; [|exact N]. apply (unlinked k p); [exact (tame_child p k TP C)|exact W|exact C|now apply low_plain].
Qed.
Lemma clear_all_id k : (forall x, inside x k -> no_reference "fSymDef" x) -> clear_all k = k.
Proof. intros H. unfold clear_all. apply map_obj_id. intros x I. apply clear_id. auto. Qed.
Lemma link_symbol_id k p : within_any p (sc_layers s ++ sc_symdefs s) -> child k p -> low (sclass k) = true ->
  in_scene (sclass p) || match sclass p with SSymdef => true | _ => false end = true -> link_symbol same_key defs m k = k.
Proof.
  intros W C L P. assert (WK := child_within k p _ W C). assert (CL : forall ks o, In ks (skids k) -> In o ks -> map_obj (fun _ => clear "fSymDef") o = o).
  { intros ks o I J. apply map_obj_id. intros x X. apply clear_id. assert (CO : child o k) by (destruct k; econstructor; eassumption).
    assert (XK : inside x k) by (econstructor; eassumption). destruct (clear_low o) with (x := x) as [-> |N]; [exact (child_within o k _ WK CO)| |exact X| |exact N].
    - apply (low_inside o k); [econstructor; [constructor|exact CO]|exact (tame_all k WK)|exact L].
    - apply (unlinked o k); [exact (tame_child k o (tame_all k WK) CO)|exact WK|exact CO|now apply low_plain]. }
  destruct k as [c vs kss]. cbn [skids] in CL. pose proof (map2_id _ kss CL) as E. destruct c; cbn [link_symbol]; rewrite ?E; try reflexivity.
  destruct (linked _ p W C eq_refl P) as (t & G & F & _). cbn [smembers] in G. unfold ref. rewrite G, F. rewrite put_same; [reflexivity|exact G|discriminate].
Qed.
Lemma clear_geo k p : within_any p (sc_layers s ++ sc_symdefs s) -> child k p -> low (sclass k) = true -> no_reference "fSymDef" k -> clear_all k = k.
Proof.
  intros W C L N. apply clear_all_id. intros x X. destruct (clear_low k) with (x := x) as [-> |H]; auto. exact (child_within k p _ W C).
Qed.
Lemma link_own_id o : within_any o (sc_layers s) -> link_own same_key defs m o = o.
Proof.
  induction o as [c vs kss IH] using sobj_induction. intros W0. assert (W : within_any (SObj c vs kss) (sc_layers s ++ sc_symdefs s)). { destruct W0 as (p & I & J). exists p. split; [apply in_or_app; now left|exact J]. }
  cbn [link_own]. rewrite (map2_id (link_own same_key defs m) kss).
  2: { intros ks o I J. rewrite Forall_forall in IH. specialize (IH ks I). rewrite Forall_forall in IH. apply (IH o J). apply (child_within _ (SObj c vs kss) _ W0). econstructor; eassumption. }
  destruct kss as [|geos r]; [reflexivity|]. f_equal. f_equal.
  assert (CH : forall k, In k geos -> child k (SObj c vs (geos :: r))) by (intros k I; econstructor; [now left|exact I]).
  assert (NSD : c <> SSymdef).
  { intros ->. destruct W0 as (p & I & J). rewrite Forall_forall in KL, TL. specialize (KL p I). specialize (TL p I). clear -J KL TL. remember (SObj SSymdef vs (geos :: r)) as o.
    assert (G : forall x p, inside x p -> tame p -> sclass p <> SSymdef -> sclass x <> SSymdef).
    { clear. induction 1 as [|x k p I IH C]; intros TP N; [exact N|]. apply IH; [exact (tame_child p k TP C)|]. destruct (in_kinds p k TP C) as (s & Is & Ik). intros E. rewrite E in Ik.
      destruct (sclass p); cbn in Is; repeat (destruct Is as [<- |Is]; [cbn in Ik; intuition discriminate|]); destruct Is. }
    apply (G o p J TL); [rewrite KL; discriminate|now subst]. }
  destruct (in_scene c) eqn:SC.
  - apply map1_id. intros k I. apply (link_symbol_id k _ W (CH k I)); [exact (slot0_low c vs geos r k (tame_all _ W) I)|]. cbn [sclass]. now rewrite SC.
  - apply map1_id. intros k I. apply (clear_geo k _ W (CH k I)); [exact (slot0_low c vs geos r k (tame_all _ W) I)|]. apply (unlinked k (SObj c vs (geos :: r))); [exact (tame_child _ k (tame_all _ W) (CH k I))|exact W|exact (CH k I)|].
    cbn [sclass]. rewrite SC. destruct c; try reflexivity. contradiction.
Qed.
Definition any_obj : bool := match flat_map scene_objs (sc_layers s) with [] => false | _ :: _ => true end.
Lemma in_entries i l j : (j < List.length l)%nat -> existsb (fun e => match snd e with Some k => (i + j =? k)%nat | None => false end) (entries i l) = true.
Proof.
  revert i j. induction l as [|d l IH]; intros i j H; [cbn [List.length] in H; lia|]. cbn [entries existsb snd]. destruct j as [|j]; [rewrite Nat.add_0_r, Nat.eqb_refl; reflexivity|].
  rewrite Nat.add_succ_r. cbn [List.length] in H. specialize (IH (S i) j ltac:(lia)). cbn [plus] in IH. now rewrite IH, orb_true_r.
Qed.
Lemma link_defs_id : forall l i, (forall j d, nth_error l j = Some d -> nth_error defs (i + j) = Some d) -> link_defs same_key defs m any_obj i l = l.
Proof.
  induction l as [|d l IH]; intros i H; [reflexivity|]. cbn [link_defs]. rewrite IH by (intros j x E; specialize (H (S j) x E); now rewrite Nat.add_succ_r in H). f_equal.
  pose proof (H O d eq_refl) as N0. rewrite Nat.add_0_r in N0. assert (ID : In d (sc_symdefs s)) by (eapply nth_error_In; exact N0).
  assert (W : within_any d (sc_layers s ++ sc_symdefs s)) by (exists d; split; [apply in_or_app; now right|constructor]).
  assert (HE : existsb (fun e => match snd e with Some j => (i =? j)%nat | None => false end) m = true).
  { apply (in_entries 0 defs i). apply nth_error_Some. congruence. }
  destruct d as [c vs kss]. cbn [link_def]. rewrite HE, andb_true_r. f_equal. destruct kss as [|geos r]; [reflexivity|]. f_equal.
  assert (CH : forall k, In k geos -> child k (SObj c vs (geos :: r))) by (intros k I; econstructor; [now left|exact I]).
  pose proof (proj1 (Forall_forall _ _) KS _ ID) as KD. cbn [sclass] in KD. subst c.
  apply map1_id. intros k I. assert (LO := slot0_low _ vs geos r k (tame_all _ W) I). destruct any_obj eqn:AO; [apply (link_symbol_id k _ W (CH k I) LO); reflexivity|].
  apply (clear_geo k _ W (CH k I) LO). apply not_symbol; [exact (tame_child _ k (tame_all _ W) (CH k I))|].
  destruct (some_object _ R) as [(o & WO & SO) |NS]; [|exact (NS _ k ID (CH k I))].
  exfalso. assert (J : In o (flat_map scene_objs (sc_layers s))) by (now apply objs_within). unfold any_obj in AO. destruct (flat_map scene_objs (sc_layers s)); [destruct J|discriminate AO].
Qed.
Lemma symbols_child o k : In k (symbols 0 o) -> child k o /\ sclass k = SSymbol.
Proof.
  unfold symbols. intros I. apply filter_In in I as (I & S). split; [|unfold is_symbol in S; destruct (sclass k); try discriminate S; reflexivity].
  destruct o as [c vs [|geos r]]; cbn [skids nth] in I; [destruct I|]. econstructor; [now left|exact I].
Qed.
Lemma found_ref o p : within_any p (sc_layers s ++ sc_symdefs s) -> child o p -> sclass o = SSymbol -> in_scene (sclass p) || match sclass p with SSymdef => true | _ => false end = true ->
  exists i, map_find same_key (sym_ref o) m = Some (Some i).
Proof. intros W C S P. destruct (linked o p W C S P) as (t & G & _ & H). unfold sym_ref, ref. rewrite G. exact H. Qed.
Lemma symbols_ok : resolve_symbols same_key defs (flat_map scene_objs (sc_layers s)) m = Ok m.
Proof.
  assert (RO : round_ok same_key defs m = true).
  { unfold round_ok. apply forallb_forall. intros e I. destruct (entries_in e 0 defs I) as (j & d & E & NE). rewrite E. cbn [plus]. rewrite NE. apply forallb_forall. intros k K.
    destruct (symbols_child d k K) as (C & S). assert (ID : In d (sc_symdefs s)) by (eapply nth_error_In; exact NE).
    destruct (found_ref k d) as (i & ->); [exists d; split; [apply in_or_app; now right|constructor]|exact C|exact S| |reflexivity]. rewrite Forall_forall in KS. rewrite (KS d ID). reflexivity. }
  assert (H : forall l, (forall o, In o l -> within_any o (sc_layers s) /\ in_scene (sclass o) = true) -> resolve_symbols same_key defs l m = Ok m).
  { induction l as [|o l IH]; intros H; [reflexivity|]. cbn [resolve_symbols]. rewrite RO. destruct (H o ltac:(now left)) as (W & SC).
    assert (OS : own_symbols same_key m o = m).
    { unfold own_symbols. assert (Q : forall k, In k (symbols 0 o) -> exists i, map_find same_key (sym_ref k) m = Some (Some i)).
      { intros k K. destruct (symbols_child o k K) as (C & S). apply (found_ref k o); [|exact C|exact S|now rewrite SC]. destruct W as (p & I & J). exists p. split; [apply in_or_app; now left|exact J]. }
      induction (symbols 0 o) as [|k ks IHk]; [reflexivity|]. cbn [fold_left]. destruct (Q k ltac:(now left)) as (i & ->). apply IHk. intros x X. apply Q. now right. }
    rewrite OS. apply IH. intros x X. apply H. now right. }
  apply H. intros o I. now apply objs_within.
Qed.
End Symbols.

(** ** The whole resolution *)
Lemma flat_map_tame o l : Forall tame l -> In o (flat_map scene_objs l) -> has_uid o.
Proof.
  intros F I. apply objs_within in I as (W & S). apply tame_uid; [exact (tame_within o l F W)|]. destruct (sclass o); try discriminate S; cbn; tauto.
Qed.
Lemma within_app_l o l m : within_any o l -> within_any o (l ++ m).
Proof. intros (p & I & J). exists p. split; [apply in_or_app; now left|exact J]. Qed.
Lemma within_app_r o l m : within_any o m -> within_any o (l ++ m).
Proof. intros (p & I & J). exists p. split; [apply in_or_app; now right|exact J]. Qed.
Theorem resolve_id same_key s : (forall t, same_key t t = true) -> (forall a b, same_key a b = true -> txeq a b = true) ->
  Forall tame (sc_layers s) -> Forall tame (sc_symdefs s) -> Forall (fun d => sclass d = SSymdef) (sc_symdefs s) -> Forall (fun d => sclass d = SLayer) (sc_layers s) ->
  Forall tame (sc_positions s) -> Forall (fun d => sclass d = SPosition) (sc_positions s) ->
  sc_provider s = [] -> sc_version s = [] -> sc_classes s = [] -> refs_ok s ->
  resolve same_key (raw_of s) = Ok (s, twice [] (map uuid_of_obj (flat_map scene_objs (sc_layers s)))).
Proof.
  intros K1 K2 TL TS KS KL TP KP E1 E2 E3 R. unfold resolve, raw_of. cbn [rw_data rw_symdefs rw_positions rw_classes rw_maps rw_layers].
  rewrite map_map. cbn [snd]. rewrite map_id. rewrite (build_entries same_key K2); [|exact (defs_uid s TS KS)|exact (definitions _ R)|intros e d []]. cbn [app].
  rewrite (symbols_ok same_key K1 K2 s TS KS R). cbn [bind].
  set (defs := sc_symdefs s). set (objs := flat_map scene_objs (sc_layers s)).
  match goal with |- context [multis [] (map ?g (sc_layers s))] => assert (ML : map g (sc_layers s) = sc_layers s) end.
  { apply map1_id. intros o I. rewrite map_obj_id.
    - apply (link_own_id same_key K1 K2 s TL TS KS KL R). exists o. split; [exact I|constructor].
    - intros x X. assert (W : within_any x (sc_layers s)) by (exists o; auto).
      assert (FX : (match sclass x with SFixture => relink "fPosition" txeq (map guid_text (sc_positions s)) (relink "fFocusPoint" txeq (map guid_text (filter (of_class SFocusPoint) objs)) (smembers x)) | _ => smembers x end) = smembers x).
      { destruct (sclass x) eqn:CX; try reflexivity. rewrite relink_id.
        - apply relink_id. intros t G. destruct (positions _ R x W t G) as [-> |(p & Ip & Gp)]; [now left|right]. apply first_found; [|eauto].
          apply Forall_forall. intros q Iq. rewrite Forall_forall in TP, KP. apply tame_uid; [auto|]. rewrite (KP q Iq). cbn. tauto.
        - intros t G. destruct (focus_points _ R x W t G) as [-> |(p & (Cp & Wp) & Gp)]; [now left|right]. apply first_found.
          + apply Forall_forall. intros q Iq. apply filter_In in Iq as (Iq & _). exact (flat_map_tame q _ TL Iq).
          + exists p. split; [|exact Gp]. apply filter_In. split; [|unfold of_class; now rewrite Cp]. apply objs_within. split; [exact Wp|]. now rewrite Cp. }
      cbv beta. rewrite FX. assert (NC : no_reference "fClass" x) by (apply (no_class _ R); now apply within_app_l). destruct (in_scene (sclass x)); [|now apply clear_id].
      apply relink_id. intros t G. left. exact (NC t G). }
  rewrite ML.
  assert (AUX : forall l, (forall o, within_any o l -> within_any o (sc_maps s ++ sc_positions s ++ sc_symdefs s)) ->
    map (fun o => fst (multi [] (map_obj (fun _ => clear "fClass") o))) l = l).
  { intros l H. apply map1_id. intros o I. rewrite map_obj_id.
    - rewrite (multi_id o []); [reflexivity|]. intros before x after E. apply keep_id. intros t G. left. apply (no_parents _ R x); [|exact G]. apply H. exists o. split; [exact I|].
      assert (MI : forall y, In (Met x) (walk y) -> inside x y).
      { clear. intros y. induction y as [c vs kss IH] using sobj_induction. cbn [walk]. intros [E|I]; [injection E as <-; constructor|]. apply in_app_or in I as [I|[E|[]]]; [|discriminate E].
        apply in_flat_map in I as (ks & I1 & I). apply in_flat_map in I as (k & I2 & I). rewrite Forall_forall in IH. specialize (IH ks I1). rewrite Forall_forall in IH.
        econstructor; [apply (IH k I2), I|econstructor; eassumption]. }
      apply MI. rewrite E. apply in_or_app. right. now left.
    - intros x X. apply clear_id. apply (no_class _ R). apply within_app_r, H. exists o. auto. }
  unfold defs. fold objs. assert (LD := link_defs_id same_key K1 K2 s TL TS KS R (sc_symdefs s) 0 ltac:(auto)). unfold any_obj in LD. fold objs in LD. rewrite LD.
  rewrite !AUX; cbn [map].
  - rewrite (multis_id (sc_layers s) []).
    + destruct s as [x1 x2 x3 x4 x5 x6 x7 x8]; cbn [sc_provider sc_version sc_data sc_layers sc_maps sc_positions sc_symdefs sc_classes] in *. now subst.
    + intros before x after E. cbn [app]. apply keep_id. intros t G. destruct (parents _ R before x after E t G) as [-> |(p & (SP & IP) & u & GU & ->)]; [now left|right].
      unfold ids. assert (J : In p (flat_map scene_objs (sc_layers s))).
      { rewrite walked_all, E, flat_map_app. apply in_or_app. left. apply in_flat_map. exists (Left p). split; [exact IP|]. cbn [lefts]. rewrite SP. now left. }
      destruct (flat_map_tame p _ TL J) as (v & V & GV). rewrite GU in GV. injection GV as <-. rewrite uuid_text_write by exact V. rewrite <- (uid_text p u GU). apply in_map.
      apply in_flat_map. exists (Left p). split; [exact IP|]. cbn [lefts]. rewrite SP. now left.
  - intros o (p & [] & _).
  - intros o W. now apply within_app_r, within_app_r.
  - intros o W. now apply within_app_r, within_app_l.
  - intros o W. now apply within_app_l.
Qed.

(** ** Two objects with one GUID *)
Lemma twice_iff l : forall seen, twice seen l = true <-> exists a u b, l = a ++ u :: b /\ (In u seen \/ In u a).
Proof.
  induction l as [|u l IH]; intros seen; cbn [twice].
  - split; [discriminate|]. intros (a & v & b & E & _). now destruct a.
  - rewrite orb_true_iff, IH. split.
    + intros [E|(a & v & b & -> & H)].
      * apply existsb_exists in E as (v & I & E). apply eqb_bytes_iff in E. subst v. exists [], u, l. auto.
      * exists (u :: a), v, b. split; [reflexivity|]. destruct H as [H|H]; [|right; now right]. apply in_app_or in H as [H|[<- |[]]]; [now left|right; now left].
    + intros ([|x a] & v & b & E & H); injection E as <- ->.
      * destruct H as [H|[]]. left. apply existsb_exists. exists u. split; [exact H|apply eqb_bytes_refl].
      * right. exists a, v, b. split; [reflexivity|]. destruct H as [H|[<- |H]]; [left; apply in_or_app; now left|left; apply in_or_app; right; now left|now right].
Qed.
Lemma filter_split {A B} (f : A -> list B) (one : forall a, f a = [] \/ exists b, f a = [b]) l x y z : flat_map f l = x ++ y :: z ->
  exists a e b, l = a ++ e :: b /\ f e = [y] /\ flat_map f a = x /\ flat_map f b = z.
Proof.
  revert x. induction l as [|e l IH]; intros x E; [destruct x; discriminate E|]. cbn [flat_map] in E. destruct (one e) as [F|(w & F)]; rewrite F in E; cbn [app] in E.
  - destruct (IH x E) as (a & e' & b & -> & F1 & F2 & F3). exists (e :: a), e', b. cbn [app flat_map]. rewrite F. auto.
  - destruct x as [|v x]; cbn [app] in E.
    + injection E as -> E. exists [], e, l. auto.
    + injection E as -> E. destruct (IH x E) as (a & e' & b & -> & F1 & F2 & F3). exists (e :: a), e', b. cbn [app flat_map]. rewrite F, F2. auto.
Qed.
Lemma twice_clash s : Forall tame (sc_layers s) -> twice [] (map uuid_of_obj (flat_map scene_objs (sc_layers s))) = true <-> clash s.
Proof.
  intros TL. rewrite twice_iff. rewrite walked_all.
  assert (ONE : forall e, lefts e = [] \/ exists b, lefts e = [b]) by (intros [o|o]; cbn [lefts]; [now left|]; destruct (in_scene (sclass o)); eauto).
  assert (INV : forall e p, lefts e = [p] -> e = Left p /\ in_scene (sclass p) = true).
  { intros [o|o] p E; [discriminate E|]. cbn [lefts] in E. destruct (in_scene (sclass o)) eqn:S; [|discriminate E]. injection E as <-. auto. }
  split.
  - intros (a & u & b & E & [[]|I]). apply map_eq_app in E as (x & y & E & EX & EY). destruct y as [|q z]; [discriminate EY|]. cbn [map] in EY. injection EY as EU EZ.
    subst a. apply in_map_iff in I as (p & EP & IP). apply in_split in IP as (x1 & x2 & ->).
    destruct (filter_split lefts ONE _ _ _ _ E) as (a & e & b' & EW & EE & EA & _). destruct (filter_split lefts ONE _ _ _ _ EA) as (a1 & e1 & b1 & -> & EE1 & _ & _).
    apply INV in EE as (-> & SQ). apply INV in EE1 as (-> & SP). exists a1, p, b1, q, b'. split; [rewrite EW, <- app_assoc; reflexivity|]. split; [exact SP|]. split; [exact SQ|].
    assert (UP : has_uid p /\ has_uid q).
    { split; apply (flat_map_tame _ _ TL); rewrite walked_all, E; apply in_or_app; [left; apply in_or_app; right; now left|right; now left]. }
    destruct UP as ((v & _ & GP) & (w & _ & GQ)). rewrite GP, GQ. unfold uuid_of_obj in *. rewrite GP in EP. rewrite GQ in EU. cbn [as_uuid] in *. congruence.
  - intros (a & p & b & q & c & E & SP & SQ & G). rewrite E. exists (map uuid_of_obj (flat_map lefts a ++ p :: flat_map lefts b)), (uuid_of_obj q), (map uuid_of_obj (flat_map lefts c)). split.
    + rewrite !flat_map_app. cbn [flat_map lefts]. rewrite SP. cbn [app]. rewrite flat_map_app. cbn [flat_map lefts]. rewrite SQ. cbn [app]. change (uuid_of_obj q :: map uuid_of_obj (flat_map lefts c)) with (map uuid_of_obj (q :: flat_map lefts c)).
      rewrite <- map_app. now rewrite <- app_assoc.
    + right. apply in_map_iff. exists p. split; [|apply in_or_app; right; now left]. unfold uuid_of_obj. now rewrite G.
Qed.
Lemma clash_same s s' : Forall tame (sc_layers s') -> Forall2 same_sobj (sc_layers s) (sc_layers s') -> Forall sobj_ok (sc_layers s) -> clash s <-> clash s'.
Proof.
  intros TL F OK. pose proof (same_walks _ _ F) as FW.
  assert (G : forall p p', same_sobj p p' -> in_scene (sclass p) = true -> In (Left p') (flat_map walk (sc_layers s')) -> exists u, get "fGuid" (smembers p) = VUuid u /\ get "fGuid" (smembers p') = VUuid u).
  { intros p p' S I J. rewrite <- (same_class _ _ S) in I. destruct (flat_map_tame p' (sc_layers s') TL) as (u & _ & GU); [apply objs_within; split; [now apply walk_within|exact I]|].
    exists u. split; [|exact GU]. now apply (same_uuid p p'). }
  split.
  - intros (a & p & b & q & c & E & SP & SQ & H). rewrite E in FW. apply Forall2_app_inv_l in FW as (a' & r' & _ & F1 & E'). inversion F1 as [|? ep ? r2 Ep F2]; subst.
    apply Forall2_app_inv_l in F2 as (b' & r3 & _ & F3 & ->). inversion F3 as [|? eq ? c' Eq _]; subst. destruct ep as [p'|p']; [contradiction Ep|]. destruct eq as [q'|q']; [contradiction Eq|]. cbn [ev_same] in *.
    exists a', p', b', q', c'. split; [exact E'|]. rewrite (same_class _ _ Ep), (same_class _ _ Eq). split; [exact SP|]. split; [exact SQ|].
    destruct (G p p' Ep SP) as (u & U1 & U2); [rewrite E'; apply in_or_app; right; now left|]. destruct (G q q' Eq SQ) as (v & V1 & V2); [rewrite E'; apply in_or_app; right; right; apply in_or_app; right; now left|]. congruence.
  - intros (a & p & b & q & c & E & SP & SQ & H). pose proof E as E'. destruct (F2_split _ _ _ _ _ _ FW E) as (a0 & [p0|p0] & r0 & E0 & _ & Ep & F3); [contradiction Ep|].
    destruct (F2_split _ _ _ _ _ _ F3 eq_refl) as (b0 & [q0|q0] & c0 & -> & _ & Eq & _); [contradiction Eq|]. cbn [ev_same] in *. exists a0, p0, b0, q0, c0. split; [exact E0|].
    rewrite (same_class _ _ Ep) in SP. rewrite (same_class _ _ Eq) in SQ. split; [exact SP|]. split; [exact SQ|].
    destruct (G p0 p Ep SP) as (u & U1 & U2); [rewrite E'; apply in_or_app; right; now left|]. destruct (G q0 q Eq SQ) as (v & V1 & V2); [rewrite E'; apply in_or_app; right; right; apply in_or_app; right; now left|]. congruence.
Qed.

(** ** Scenes *)
Lemma kinds_same c l l' : of_kind c l -> Forall2 same_sobj l l' -> Forall tame l' /\ Forall (fun d => sclass d = c) l'.
Proof.
  intros K F. induction F as [|o o' l l' S F IH]; [split; constructor|]. inversion K as [|? ? (C & OK) K2]; subst. destruct (IH K2) as (A & B).
  split; constructor; auto; [exact (same_tame o o' OK S)|now rewrite (same_class _ _ S)].
Qed.
Theorem scene_back same_key s : (forall t, same_key t t = true) -> (forall a b, same_key a b = true -> txeq a b = true) -> scene_ok s ->
  exists n s' b, write_scene s = Ok n /\ read_scene same_key n = Ok (s', b) /\ same_scene s s' /\ (b = true <-> clash s).
Proof.
  intros K1 K2 (P & V & D & L & M & PO & SY & R). assert (LI : listed s) by (repeat split; assumption). destruct (document s LI) as (n & s' & W & RR & SL & E1 & E2 & E3).
  pose proof (refs_same s s' LI R SL) as R'. pose proof SL as (SD & SLL & SM & SP & SS).
  destruct (kinds_same _ _ _ L SLL) as (TL & KL). destruct (kinds_same _ _ _ SY SS) as (TS & KS). destruct (kinds_same _ _ _ PO SP) as (TP & KP).
  exists n, s', (twice [] (map uuid_of_obj (flat_map scene_objs (sc_layers s')))). split; [exact W|]. split.
  - unfold read_scene. rewrite RR. cbn [bind]. now apply resolve_id.
  - split; [repeat split; assumption|]. rewrite (twice_clash s' TL). symmetry. apply clash_same; [exact TL|exact SLL|]. eapply Forall_impl; [|exact L]. now intros o (_ & OK).
Qed.
