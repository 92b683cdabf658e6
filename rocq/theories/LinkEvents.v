(** Lemmas: what resolving a fixture does if its references are in order. *)
From Coq Require Import String List NArith ZArith Bool Lia.
From Verif Require Import Bytes Txt StringModel StringProofs NumModel EnumModel ObjModel ObjSpec ObjTree ObjCheck ObjMore LookupModel LookupProps LinkModel LinkSpec LinkWhere LinkProofs.
Import ListNotations.
Open Scope N_scope.

Lemma linear_same {A} (l : list (list N * A)) t t' : same_name t t' -> linear l t = linear l t'.
Proof.
  intros E. unfold linear. induction l as [|(k, x) l IH]; [reflexivity|]. cbn [find fst].
  replace (txeq k t') with (txeq k t); [destruct (txeq k t); [reflexivity|exact IH]|].
  unfold same_name in E. destruct (txeq k t) eqn:E1, (txeq k t') eqn:E2; try reflexivity.
  - apply txeq_same_name in E1. assert (X : txeq k t' = true) by (apply txeq_same_name; unfold same_name in *; congruence). congruence.
  - apply txeq_same_name in E2. assert (X : txeq k t = true) by (apply txeq_same_name; unfold same_name in *; congruence). congruence.
Qed.
Lemma nlen_if {A} (t : list N) (a b : A) : (if nlen t =? 0 then a else b) = match t with [] => a | _ => b end.
Proof. destruct t as [|x t]; [reflexivity|]. rewrite nlen_cons by discriminate. reflexivity. Qed.
Lemma each_flat {A} (f : A -> res (list event)) g : forall l, (forall a, In a l -> f a = Ok (g a)) -> each f l = Ok (flat_map g l).
Proof.
  induction l as [|a l IH]; intros H; [reflexivity|]. cbn [each flat_map]. rewrite (H a (or_introl eq_refl)). cbn [bind]. rewrite IH; [reflexivity|]. intros x I. apply H. right. exact I.
Qed.
Lemma nodup_one {A B} : forall (l : list (A * B)) a b b', NoDup (map fst l) -> In (a, b) l -> In (a, b') l -> b = b'.
Proof.
  induction l as [|(x, y) l IH]; intros a b b' N H H'; [destruct H|]. cbn [map fst] in N. inversion N as [|? ? Nx Nl]; subst.
  destruct H as [E|H], H' as [E'|H']; [congruence| | |exact (IH a b b' Nl H H')].
  - injection E as -> ->. destruct Nx. exact (in_map fst _ _ H').
  - injection E' as -> ->. destruct Nx. exact (in_map fst _ _ H).
Qed.
Lemma refs_one c m k k' : In (m, k) (refs c) -> In (m, k') (refs c) -> k = k'.
Proof.
  apply nodup_one. destruct c; cbn [refs map fst]; repeat (constructor; [cbn [In]; intuition discriminate|]); constructor.
Qed.

Section Fixture.
Variable root : obj.
Hypothesis W : well_placed root.
Hypothesis R : class root = CFixture.
Hypothesis L : linked root.
Variable hash : list N -> N.
Variable n : N.
Let top : spot := ([], root).
Definition good_spot (s : spot) : Prop := at_place root (fst s) = Some (snd s).
Lemma down_good cs s x : good_spot s -> In x (down cs s) -> good_spot x.
Proof. destruct s as (p, o), x as (q, k). intros G I. apply down_iff in I as (r & -> & A & _). unfold good_spot in *. cbn [fst snd] in *. rewrite at_app, G. exact A. Qed.
Lemma those_good c s x : good_spot s -> In x (those c s) -> good_spot x /\ class (snd x) = c.
Proof.
  destruct s as (p, o), x as (q, k). intros G I. apply those_iff in I as (j & -> & N & C). unfold good_spot in *. cbn [fst snd] in *. split; [|exact C]. rewrite at_app, G. cbn. rewrite N. reflexivity.
Qed.
Lemma down_class : forall cs c s x, In x (down (cs ++ [c]) s) -> class (snd x) = c.
Proof.
  intros cs c s (q, k) I. rewrite down_app in I. apply in_flat_map in I as ((p, o) & _ & I). cbn [down] in I. apply in_flat_map in I as (y & Iy & [->|[]]).
  apply those_iff in Iy as (j & _ & _ & C). exact C.
Qed.
(** A reference that is set means one object. *)
Lemma settled l k s m : good_spot s -> In (m, k) (refs (class (snd s))) -> (forall q t, In (t, q) l <-> means root (fst s) k q t) -> text m s <> [] ->
  exists q, linear l (text m s) = Some q /\ forall q', means root (fst s) k q' (text m s) <-> q' = q.
Proof.
  intros G Ir Hl Nt. rewrite text_field in *. destruct (proj1 L (fst s) (snd s) m k G Ir) as (_ & H). destruct (H Nt) as (q & M & U).
  exists q. split; [apply (look l _ _ Hl); [exists q; auto|exact M]|]. intros q'. split; [intros M'; apply (U q' (field m (snd s)) M' eq_refl)|intros ->; exact M].
Qed.
Lemma find_in_eq l t : find_in hash n root l t = to (linear l t).
Proof. unfold find_in, by_ref. destruct (use root); [rewrite index_find|]; reflexivity. Qed.
Lemma find_geo_eq t : find_geo hash n root t = to (linear (flat_map flatten (geos root)) t).
Proof. unfold find_geo, geometry_by_ref. destruct (use root); [rewrite index_find|rewrite (resolve_flatten hash _ t _ (Nat.lt_succ_diag_r _))]; reflexivity. Qed.
Lemma option_iff {A} (x y : option A) : (forall a, x = Some a <-> y = Some a) -> x = y.
Proof. intros H. destruct x as [a|]; [symmetry; apply H; reflexivity|]. destruct y as [a|]; [|reflexivity]. apply H. reflexivity. Qed.
Lemma unit_eq t : unit_by_ref hash n (use root) (units root) t = linear (List.concat (units root)) t.
Proof. apply option_iff. intros a. rewrite C52_units, linear_some. reflexivity. Qed.

(** ** Attributes *)
Definition attribute_names : list (list N * @attr place) := map attribute_at (attributes root).
Definition attribute_of (t : list N) : option (@attr place) := linear attribute_names t.
Lemma attribute_settled s m : good_spot s -> In (m, RAttribute) (refs (class (snd s))) -> text m s <> [] ->
  exists q, attribute_of (text m s) = Some (Attr q) /\ has root q CAttribute "fName" (text m s) /\ forall q', means root (fst s) RAttribute q' (text m s) <-> q' = q.
Proof.
  intros G Ir Nt. rewrite text_field in *. destruct (proj1 L (fst s) (snd s) m RAttribute G Ir) as (_ & H). destruct (H Nt) as (q & M & U).
  exists q. split; [|split; [exact M|]].
  - apply (look attribute_names _ (fun a t => exists q, a = Attr q /\ has root q CAttribute "fName" t)).
    + intros a t. unfold attribute_names, attribute_at. rewrite in_map_iff. split.
      * intros ((q', k) & [= <- <-] & I). exists q'. split; [reflexivity|]. apply (attributes_iff root W R) in I as (A & C). exists k. rewrite text_field. auto.
      * intros (q' & -> & k & A & C & <-). exists (q', k). rewrite text_field. split; [reflexivity|]. apply (attributes_iff root W R). auto.
    + exists (Attr q). split; [exists q; split; [reflexivity|exact M]|]. intros a t' (q' & -> & M') Sn. f_equal. exact (U q' t' M' Sn).
    + exists q. split; [reflexivity|exact M].
  - intros q'. split; [intros M'; apply (U q' (field m (snd s)) M' eq_refl)|intros ->; exact M].
Qed.
Lemma get_ok t a : attribute_of t = Some a -> get_attribute hash n (start hash n root) t = (Some a, start hash n root).
Proof.
  intros E. unfold get_attribute, start, build_attrs. cbn [at_none at_use at_list at_index]. fold attribute_names. destruct (txeq t no_feature) eqn:F.
  - apply txeq_same_name in F. rewrite <- (linear_same attribute_names t no_feature F). unfold attribute_of in E. rewrite E. reflexivity.
  - rewrite index_find. unfold attribute_of in E. rewrite E. destruct (128 <=? total root); reflexivity.
Qed.
Lemma attr_name_ok q t : has root q CAttribute "fName" t -> attr_name root (Some (Attr q)) = Some t.
Proof.
  intros (k & A & C & <-). cbn [attr_name]. match goal with |- context [find ?g (attributes root)] => destruct (find g (attributes root)) as [(q', k')|] eqn:F end.
  - apply find_some in F as (I & E). cbn [fst] in E. destruct (list_eq_dec Nat.eq_dec q' q) as [->|]; [|discriminate]. apply (attributes_iff root W R) in I as (A' & _). rewrite text_field. cbn [snd]. congruence.
  - assert (I : In (q, k) (attributes root)) by (apply (attributes_iff root W R); auto). pose proof (find_none _ _ F _ I) as E. cbn [fst] in E. destruct (list_eq_dec Nat.eq_dec q q); [discriminate|contradiction].
Qed.
Lemma geo_name_ok q t : geometry_at root q t -> geo_name root (To q) = Some t.
Proof.
  intros M. cbn [geo_name]. match goal with |- context [find ?g (flat_map flatten (geos root))] => destruct (find g (flat_map flatten (geos root))) as [(t', q')|] eqn:F end.
  - apply find_some in F as (I & E). cbn [snd] in E. destruct (list_eq_dec Nat.eq_dec q' q) as [->|]; [|discriminate]. apply (geos_iff root W R) in I.
    destruct M as (k & A & _ & <-), I as (k' & A' & _ & <-). cbn [fst]. congruence.
  - assert (I : In (t, q) (flat_map flatten (geos root))) by (apply (geos_iff root W R); exact M). pose proof (find_none _ _ F _ I) as E. cbn [snd] in E. destruct (list_eq_dec Nat.eq_dec q q); [discriminate|contradiction].
Qed.

(** ** The events without state *)
Definition attribute_event (s : spot) : event := Link (fst s) "fAttribute" (attr_target (attribute_of (text "fAttribute" s))).
Definition function_ev (s : spot) : list event := attribute_event s :: function_links hash n root s.
Definition logical_ev (s : spot) : list event := attribute_event s :: flat_map function_ev (those CDmxChannelFunction s).
Lemma needs_attribute s c : good_spot s -> class (snd s) = c -> c = CDmxLogicalChannel \/ c = CDmxChannelFunction ->
  exists q, attribute_of (text "fAttribute" s) = Some (Attr q) /\ has root q CAttribute "fName" (text "fAttribute" s) /\
    forall q', means root (fst s) RAttribute q' (text "fAttribute" s) <-> q' = q.
Proof.
  intros G C D. assert (Ir : In ("fAttribute"%string, RAttribute) (refs (class (snd s)))) by (rewrite C; destruct D as [->| ->]; left; reflexivity).
  apply (attribute_settled s "fAttribute" G Ir). rewrite text_field. apply (proj1 (proj1 L (fst s) (snd s) "fAttribute"%string RAttribute G Ir)). left. rewrite C. auto.
Qed.
Lemma functions_pure : forall l, (forall s, In s l -> good_spot s /\ class (snd s) = CDmxChannelFunction) ->
  functions hash n root (start hash n root) l = (flat_map function_ev l, map pure_function l, start hash n root).
Proof.
  induction l as [|s l IH]; intros H; [reflexivity|]. destruct (H s (or_introl eq_refl)) as (G & C). destruct (needs_attribute s _ G C (or_intror eq_refl)) as (q & E & Hq & _).
  cbn [functions]. rewrite (get_ok _ _ E). rewrite IH by (intros x I; apply H; right; exact I). cbn [flat_map map]. rewrite (attr_name_ok q _ Hq). cbn [no_attribute].
  assert (X : function_ev s = Link (fst s) "fAttribute" (To q) :: function_links hash n root s) by (unfold function_ev, attribute_event; rewrite E; reflexivity).
  rewrite X. reflexivity.
Qed.
Lemma logicals_pure : forall l, (forall s, In s l -> good_spot s /\ class (snd s) = CDmxLogicalChannel) ->
  logicals hash n root (start hash n root) l = (flat_map logical_ev l, map pure_logical l, start hash n root).
Proof.
  induction l as [|s l IH]; intros H; [reflexivity|]. destruct (H s (or_introl eq_refl)) as (G & C). destruct (needs_attribute s _ G C (or_introl eq_refl)) as (q & E & Hq & _).
  cbn [logicals]. rewrite (get_ok _ _ E). rewrite functions_pure by (intros x I; apply (those_good _ s x G I)). rewrite IH by (intros x I; apply H; right; exact I).
  cbn [flat_map map]. rewrite (attr_name_ok q _ Hq). cbn [no_attribute]. 
  assert (X : logical_ev s = Link (fst s) "fAttribute" (To q) :: flat_map function_ev (those CDmxChannelFunction s)) by (unfold logical_ev, attribute_event; rewrite E; reflexivity).
  rewrite X. reflexivity.
Qed.
Definition geo_target (s : spot) : target := match text "fGeomRef" s with [] => Null | t => to (linear (flat_map flatten (geos root)) t) end.
Definition initial_ev (s : spot) : list event :=
  match text "fInitialFunction" s with
  | [] => match h_logical (pure_channel s) with
          | {| l_funcs := f :: _ |} :: _ => [Link (fst s) "fInitialFunction" (To (f_id f))]
          | _ => [Report (fst s) FixtureDMXChannelMissingChannelFunction]
          end
  | t => set_or s "fInitialFunction" (to (linear (function_keys [pure_channel s]) t)) FixtureDMXChannelUnresolvedChannelFunction
  end.
Definition channel_ev (s : spot) : list event :=
  set_or s "fGeomRef" (geo_target s) FixtureDMXChannelMissingGeometryLink ++ flat_map logical_ev (those CDmxLogicalChannel s) ++ initial_ev s.
Lemma logs_pure s ref : linear_logs (pure_channel s) (h_logical (pure_channel s)) ref = Ok (linear (function_keys [pure_channel s]) ref).
Proof.
  pose proof (pure_complete s) as C. destruct (entries_ok [pure_channel s]) as (e & He); [constructor; [exact C|constructor]|].
  cbn [entries] in He. apply bind_ok in He as (nm & _ & He). apply bind_ok in He as (fs & Ef & He).
  rewrite (linear_logs_ok _ ref _ _ Ef). f_equal. f_equal. rewrite (log_keys_ok hash _ C _ _ (proj2 (proj2 C)) Ef). unfold function_keys. cbn [flat_map]. rewrite app_nil_r. reflexivity.
Qed.
Lemma geo_settled s : good_spot s -> class (snd s) = CDmxChannel -> geo_name root (geo_target s) = match text "fGeomRef" s with [] => None | t => Some t end.
Proof.
  intros G C. unfold geo_target. destruct (text "fGeomRef" s) as [|x t] eqn:E; [reflexivity|]. rewrite <- E.
  assert (Ir : In ("fGeomRef"%string, RGeometry) (refs (class (snd s)))) by (rewrite C; left; reflexivity).
  destruct (settled (flat_map flatten (geos root)) RGeometry s "fGeomRef" G Ir (geos_iff root W R)) as (q & Eq & M); [rewrite E; discriminate|].
  rewrite Eq. cbn [to]. apply geo_name_ok. apply (proj2 (M q) eq_refl).
Qed.
Lemma channels_pure : forall l, (forall s, In s l -> good_spot s /\ class (snd s) = CDmxChannel) ->
  channels hash n root (start hash n root) l = Ok (flat_map channel_ev l, map pure_channel l, start hash n root).
Proof.
  induction l as [|s l IH]; intros H; [reflexivity|]. destruct (H s (or_introl eq_refl)) as (G & C). cbn [channels].
  rewrite logicals_pure by (intros x I; apply (those_good _ s x G I)). rewrite !nlen_if.
  assert (E : match text "fGeomRef" s with [] => Null | _ => find_geo hash n root (text "fGeomRef" s) end = geo_target s).
  { unfold geo_target. destruct (text "fGeomRef" s); [reflexivity|apply find_geo_eq]. }
  rewrite E. clear E. rewrite (geo_settled s G C). fold (pure_channel s).
  assert (E : initial_function s (pure_channel s) = Ok (initial_ev s)).
  { unfold initial_function, initial_ev. rewrite nlen_if. destruct (text "fInitialFunction" s) as [|x t] eqn:E; [destruct (h_logical (pure_channel s)) as [|[a [|f fs]] ls]; reflexivity|].
    rewrite logs_pure. reflexivity. }
  rewrite E. cbn [bind]. rewrite IH by (intros x I; apply H; right; exact I). cbn [bind flat_map map]. do 3 f_equal. unfold channel_ev at 2. rewrite <- !app_assoc. reflexivity.
Qed.

(** ** Modes *)
Lemma entries_names : forall cs e, Forall complete cs -> entries cs = Ok e -> fst e = channel_names cs.
Proof.
  intros cs e H. revert e. induction H as [|c cs Hc _ IH]; intros e He; cbn [entries] in He; [injection He as <-; reflexivity|].
  apply bind_ok in He as (nm & En & He). apply bind_ok in He as (fs & _ & He). apply bind_ok in He as (e' & Ee & He). injection He as <-.
  cbn [fst channel_names map]. rewrite (channel_text_ok c nm Hc En). f_equal. apply IH, Ee.
Qed.
Lemma find_channel_eq cs t : Forall complete cs -> find_channel hash n cs t = Ok (to (linear (channel_names cs) t)).
Proof.
  intros C. destruct (entries_ok cs C) as (e & He). unfold find_channel, channel_by_ref. rewrite <- (entries_names cs e C He). destruct (indexed cs).
  - rewrite He. cbn [bind]. rewrite index_find. reflexivity.
  - rewrite (linear_channel_ok _ e); [reflexivity|]. rewrite entries_named; assumption.
Qed.
Lemma find_function_eq cs t : Forall complete cs -> find_function hash n cs t = Ok (to (linear (function_keys cs) t)).
Proof.
  intros C. destruct (C52_function_partial hash n cs t C) as (r & E1 & E2 & H). unfold find_function.
  assert (E : function_by_ref hash n (indexed cs) cs t = Ok r) by (destruct (indexed cs); assumption). rewrite E. cbn [bind]. do 2 f_equal.
  apply option_iff. intros a. rewrite H, linear_some. reflexivity.
Qed.
Definition relation_ev (m s : spot) : list event :=
  [Link (fst s) "fMasterDmxChannel" (to (linear (channel_names (mode_channels m)) (text "fMasterDmxChannel" s)));
   Link (fst s) "fSlaveChannelFunction" (to (linear (function_keys (mode_channels m)) (text "fSlaveChannelFunction" s)))].
Definition dmx_value_ev (m s : spot) : list event :=
  set_or s "fDMXChannel" (to (linear (channel_names (mode_channels m)) (text "fDMXChannel" s))) DmxMacroDmxValueChannelReference.
Definition visual_value_ev (m s : spot) : list event :=
  match to (linear (function_keys (mode_channels m)) (text "fChannelFunctionRef" s)) with
  | Null => [] | x => [Link (fst s) "fChannelFunctionRef" x] end.
Definition macro_ev (m s : spot) : list event :=
  if_text s "fChannelFunction" (fun t => to (linear (function_keys (mode_channels m)) t)) ++
  flat_map (dmx_value_ev m) (down [CMacroDMX; CMacroDMXStep; CMacroDMXValue] s) ++
  flat_map (visual_value_ev m) (down [CMacroVisual; CMacroVisualStep; CMacroVisualValue] s).
Definition mode_ev (s : spot) : list event :=
  mode_geometry root s ++ flat_map channel_ev (channel_spots s) ++ flat_map (relation_ev s) (down [CRelations; CDmxRelation] s) ++
  flat_map (macro_ev s) (down [CFTMacros; CMacro] s).
Lemma mode_pure : forall l, (forall s, In s l -> good_spot s /\ class (snd s) = CDmxMode) ->
  mode_links hash n root (start hash n root) l = Ok (flat_map mode_ev l, map (fun s => (s, mode_channels s)) l, start hash n root).
Proof.
  induction l as [|s l IH]; intros H; [reflexivity|]. destruct (H s (or_introl eq_refl)) as (G & C). cbn [mode_links].
  rewrite channels_pure.
  2:{ intros x I. split; [exact (down_good _ s x G I)|exact (down_class [CDMXChannels] CDmxChannel s x I)]. }
  cbn [bind]. fold (mode_channels s). pose proof (mode_complete s) as K.
  rewrite (each_flat _ (relation_ev s)).
  2:{ intros x _. unfold relation_links. rewrite find_channel_eq, find_function_eq by exact K. reflexivity. }
  cbn [bind]. rewrite (each_flat _ (macro_ev s)).
  2:{ intros x _. unfold macro_links, macro_ev, if_text. rewrite !nlen_if.
      rewrite (each_flat _ (dmx_value_ev s)) by (intros y _; unfold dmx_value_links; rewrite find_channel_eq by exact K; reflexivity).
      rewrite (each_flat _ (visual_value_ev s)) by (intros y _; unfold visual_value_links, visual_value_ev; rewrite find_function_eq by exact K; cbn [bind]; destruct (to _); reflexivity).
      destruct (text "fChannelFunction" x); [reflexivity|]. rewrite find_function_eq by exact K. reflexivity. }
  cbn [bind]. rewrite IH by (intros x I; apply H; right; exact I). cbn [bind flat_map map]. do 3 f_equal. unfold mode_ev at 2. rewrite <- !app_assoc. reflexivity.
Qed.
Definition master_ev (m h s : spot) : list event :=
  match text "fModeMaster" s with
  | [] => []
  | t => match to (linear (channel_names (mode_channels m)) t) with
         | Null => match to (linear (function_keys (mode_channels m)) t) with
                   | Null => [Report (fst h) DMXModeMastersUnresolved] | y => [Link (fst s) "fModeMaster" y] end
         | x => [Link (fst s) "fModeMaster" x]
         end
  end.
Definition masters_ev (m : spot) : list event :=
  flat_map (fun h => flat_map (master_ev m h) (down [CDmxLogicalChannel; CDmxChannelFunction] h)) (channel_spots m).
Lemma masters_pure l : mode_masters hash n (map (fun s => (s, mode_channels s)) l) = Ok (flat_map masters_ev l).
Proof.
  unfold mode_masters. rewrite (each_flat _ (fun m => masters_ev (fst m))).
  - f_equal. induction l as [|s l IH]; [reflexivity|]. cbn [map flat_map fst]. rewrite IH. reflexivity.
  - intros m I. apply in_map_iff in I as (s & <- & _). cbn [fst snd]. unfold masters_ev. apply each_flat. intros h _. apply each_flat. intros x _.
    pose proof (mode_complete s) as K. unfold master_links, master_ev. rewrite nlen_if. destruct (text "fModeMaster" x); [reflexivity|]. rewrite find_channel_eq, find_function_eq by exact K.
    cbn [bind]. destruct (to (linear (channel_names (mode_channels s)) _)); try reflexivity. destruct (to _); reflexivity.
Qed.

(** ** Attributes *)
Definition attribute_ev (s : spot) : list event :=
  match text "fActivationGroup" s with [] => [] | t => set_or s "fActivationGroup" (to (linear (groups root) t)) AttributeUnresolvedActivationGroup end ++
  match text "fFeature" s with
  | [] => []
  | t => set_or s "fFeature" (find_feature (features root) t) AttributeUnresolvedFeature ++
         match text "fMainAttribute" s with
         | [] => []
         | t' => set_or s "fMainAttribute" (attr_target (attribute_of t')) AttributeUnresolvedMainAttribute
         end
  end.
Lemma features_start : features_now root (start hash n root) = features root.
Proof.
  unfold features_now. replace (existsb _ _) with false; [reflexivity|]. symmetry. unfold start, build_attrs. cbn [at_list]. induction (attributes root) as [|s l IH]; [reflexivity|exact IH].
Qed.
Lemma attributes_pure : forall l, (forall s, In s l -> good_spot s /\ class (snd s) = CAttribute) ->
  attribute_links hash n root (start hash n root) l = Ok (flat_map attribute_ev l, start hash n root).
Proof.
  induction l as [|s l IH]; intros H; [reflexivity|]. destruct (H s (or_introl eq_refl)) as (G & C). cbn [attribute_links]. rewrite !nlen_if, features_start.
  destruct (text "fMainAttribute" s) as [|y u] eqn:Em.
  - rewrite IH by (intros x I; apply H; right; exact I). cbn [bind fst snd flat_map]. generalize (flat_map attribute_ev l). intros rest. unfold attribute_ev. rewrite Em, <- app_assoc.
    destruct (text "fActivationGroup" s), (text "fFeature" s); rewrite <- ?app_assoc; reflexivity.
  - destruct (attribute_settled s "fMainAttribute" G) as (q & Eq & _); [rewrite C; right; right; left; reflexivity|rewrite Em; discriminate|]. rewrite Em in Eq.
    rewrite (get_ok _ _ Eq), Nat.eqb_refl. rewrite IH by (intros x I; apply H; right; exact I). cbn [bind fst snd flat_map]. generalize (flat_map attribute_ev l). intros rest. unfold attribute_ev.
    rewrite Em, Eq, <- app_assoc. destruct (text "fActivationGroup" s), (text "fFeature" s); rewrite <- ?app_assoc; reflexivity.
Qed.
Definition all_ev : list event :=
  all_geo_links hash n root ++ flat_map mode_ev (modes root) ++ flat_map masters_ev (modes root) ++ personality_links root ++
  flat_map attribute_ev (attributes root) ++ slot_links hash n root.
Lemma resolve_pure : resolve_all hash n root = Ok all_ev.
Proof.
  unfold resolve_all. rewrite mode_pure by (intros (q, k) I; apply (modes_iff root W R) in I as (A & C); auto). cbn [bind]. rewrite masters_pure. cbn [bind].
  rewrite attributes_pure by (intros (q, k) I; apply (attributes_iff root W R) in I as (A & C); auto). reflexivity.
Qed.
End Fixture.
