(** C101: after loading a fixture every reference points to the object it means. *)
From Coq Require Import String List NArith ZArith Bool Lia.
From Verif Require Import Bytes Txt StringModel StringProofs NumModel EnumModel ObjModel ObjSpec ObjTree ObjCheck ObjMore LookupModel LookupProps LinkModel LinkSpec LinkWhere LinkProofs LinkEvents.
Import ListNotations.
Open Scope N_scope.

Section Fixture.
Variable root : obj.
Hypothesis W : well_placed root.
Hypothesis R : class root = CFixture.
Hypothesis L : linked root.
Variable hash : list N -> N.
Variable n : N.
Let top : spot := ([], root).
Notation good := (good_spot root).

(** ** Single references *)
Lemma refers_iff s m k q : good s -> In (m, k) (refs (class (snd s))) -> k <> RInitial ->
  (refers root (fst s) m q <-> text m s <> [] /\ means root (fst s) k q (text m s)).
Proof.
  intros G I N. rewrite text_field. split.
  - intros (o & k' & A & I' & D). rewrite G in A. injection A as <-. assert (k' = k) by (eapply refs_one; eassumption). subst k'. destruct D as [D|(-> & _)]; [exact D|contradiction].
  - intros D. exists (snd s), k. auto.
Qed.
Lemma found l k s m : good s -> In (m, k) (refs (class (snd s))) -> (forall q t, In (t, q) l <-> means root (fst s) k q t) -> text m s <> [] ->
  forall q, to (linear l (text m s)) = To q <-> means root (fst s) k q (text m s).
Proof.
  intros G I H N q. destruct (settled root L l k s m G I H N) as (q0 & E & M). rewrite E. cbn [to]. rewrite M. split; [intros [= ->]; reflexivity|intros ->; reflexivity].
Qed.
(** An empty reference that stands for nothing. *)
Definition unset (p : place) (m : string) : Prop :=
  exists o k, at_place root p = Some o /\ In (m, k) (refs (class o)) /\ field m o = [] /\ forall q, ~ refers root p m q.
(** Pointers are set as the references say; reports are about modes and channels without a geometry, channels
    without a function and values of macros without a channel. *)
Definition tidy (e : event) : Prop :=
  match e with
  | Link p m (To q) => refers root p m q
  | Link p m Null => unset p m
  | Link _ _ Made => False
  | Report p _ => exists o m, at_place root p = Some o /\ In (class o) [CDmxMode; CDmxChannel; CMacroDMXValue] /\ unset p m
  end.
Definition sound (l : list event) : Prop := forall e, In e l -> tidy e.
Lemma sound_app a b : sound a -> sound b -> sound (a ++ b).
Proof. intros A B e I. apply in_app_iff in I as [I|I]; auto. Qed.
Lemma sound_nil : sound [].
Proof. intros e []. Qed.
Lemma sound_flat {A} (f : A -> list event) l : (forall a, In a l -> sound (f a)) -> sound (flat_map f l).
Proof. intros H e I. apply in_flat_map in I as (a & Ia & I). exact (H a Ia e I). Qed.
Lemma linked_to s m k : good s -> In (m, k) (refs (class (snd s))) -> text m s <> [] -> exists q, means root (fst s) k q (text m s).
Proof. intros G I N. rewrite text_field in *. destruct (proj2 (proj1 L (fst s) (snd s) m k G I) N) as (q & M & _). exists q. exact M. Qed.
Lemma sound_link s m k x : good s -> In (m, k) (refs (class (snd s))) -> k <> RInitial -> text m s <> [] ->
  (forall q, x = To q <-> means root (fst s) k q (text m s)) -> sound [Link (fst s) m x].
Proof.
  intros G I N Nt H. destruct (linked_to s m k G I Nt) as (q & M). rewrite (proj2 (H q) M). intros e [<-|[]]. apply (refers_iff s m k q G I N). auto.
Qed.
Lemma sound_ref s m k x : good s -> In (m, k) (refs (class (snd s))) -> k <> RInitial -> x <> Made -> (forall q, x = To q <-> refers root (fst s) m q) -> sound [Link (fst s) m x].
Proof.
  intros G I N Nm H e [<-|[]]. destruct x; [|apply H; reflexivity|contradiction]. exists (snd s), k. split; [exact G|]. split; [exact I|].
  assert (No : forall q, ~ refers root (fst s) m q) by (intros q Rf; apply H in Rf; discriminate Rf). split; [|exact No]. rewrite <- text_field. destruct (text m s) as [|c t] eqn:E; [reflexivity|]. exfalso.
  destruct (linked_to s m k G I) as (q & M); [rewrite E; discriminate|]. apply (No q). apply (refers_iff s m k q G I N). split; [rewrite E; discriminate|exact M].
Qed.
Lemma to_made x : to x <> Made.
Proof. destruct x; discriminate. Qed.
Lemma sound_set s m x e : good s -> sound [Link (fst s) m x] -> x <> Null \/ In (class (snd s)) [CDmxMode; CDmxChannel; CMacroDMXValue] -> sound (set_or s m x e).
Proof.
  intros G H D. destruct x; [|exact H|exact H]. destruct D as [D|D]; [contradiction|]. intros e' [<-|[]]. exists (snd s), m. split; [exact G|]. split; [exact D|]. apply (H _ (or_introl eq_refl)).
Qed.
Lemma set_link s m k x e : good s -> In (m, k) (refs (class (snd s))) -> k <> RInitial -> text m s <> [] ->
  (forall q, x = To q <-> means root (fst s) k q (text m s)) -> sound (set_or s m x e).
Proof.
  intros G I N Nt H. apply sound_set; [exact G|apply (sound_link s m k x G I N Nt H)|]. left. destruct (linked_to s m k G I Nt) as (q & M). rewrite (proj2 (H q) M). discriminate.
Qed.
Lemma sound_if s m k find : good s -> In (m, k) (refs (class (snd s))) -> k <> RInitial ->
  (text m s <> [] -> forall q, find (text m s) = To q <-> means root (fst s) k q (text m s)) -> sound (if_text s m find).
Proof.
  intros G I N H. unfold if_text. rewrite nlen_if. destruct (text m s) as [|x t] eqn:E; [apply sound_nil|].
  apply (sound_link s m k _ G I N); rewrite E; [discriminate|apply H; discriminate].
Qed.
Lemma in_set s m x e q : x = To q -> In (Link (fst s) m (To q)) (set_or s m x e).
Proof. intros ->. left. reflexivity. Qed.
Lemma in_if s m k find q : good s -> In (m, k) (refs (class (snd s))) -> k <> RInitial ->
  (text m s <> [] -> forall q, find (text m s) = To q <-> means root (fst s) k q (text m s)) -> refers root (fst s) m q -> In (Link (fst s) m (To q)) (if_text s m find).
Proof.
  intros G I N H Rf. apply (refers_iff s m k q G I N) in Rf as (Nt & M). unfold if_text. rewrite nlen_if. apply (H Nt) in M.
  destruct (text m s) as [|x t] eqn:E; [contradiction|]. left. rewrite M. reflexivity.
Qed.
Lemma find_in_found l k s m : good s -> In (m, k) (refs (class (snd s))) -> (forall q t, In (t, q) l <-> means root (fst s) k q t) -> text m s <> [] ->
  forall q, find_in hash n root l (text m s) = To q <-> means root (fst s) k q (text m s).
Proof. intros G I H N q. rewrite find_in_eq. apply found; assumption. Qed.
Lemma find_geo_found s m : good s -> In (m, RGeometry) (refs (class (snd s))) -> text m s <> [] ->
  forall q, find_geo hash n root (text m s) = To q <-> means root (fst s) RGeometry q (text m s).
Proof. intros G I N q. rewrite find_geo_eq. apply (found (flat_map flatten (geos root)) RGeometry s m G I); [|exact N]. exact (geos_iff root W R). Qed.

(** ** Geometries *)
Lemma geo_spot s : In s (all_geos root) -> good s /\ In (class (snd s)) geometry_classes.
Proof. destruct s as (q, k). intros I. apply (all_geos_iff root W R) in I. exact I. Qed.
Lemma model_ref c : In c geometry_classes -> In ("fModelReference"%string, RModel) (refs c).
Proof. intros I. repeat (destruct I as [<-|I]; [left; reflexivity|]). destruct I. Qed.
Lemma needed_text s m k : good s -> In (m, k) (refs (class (snd s))) -> needed (class (snd s)) m -> text m s <> [].
Proof. intros G I N. rewrite text_field. exact (proj1 (proj1 L (fst s) (snd s) m k G I) N). Qed.
Lemma geo_sound s : In s (all_geos root) -> sound (geo_own hash n root s).
Proof.
  intros I. destruct (geo_spot s I) as (G & C). unfold geo_own. apply sound_app.
  - rewrite nlen_if. destruct (text "fModelReference" s) as [|x t] eqn:E; [apply sound_nil|].  rewrite <- E.
    apply (set_link s "fModelReference" RModel _ _ G (model_ref _ C)); [discriminate|rewrite E; discriminate|].
    apply (find_in_found (models root) RModel s "fModelReference" G (model_ref _ C)); [intros; apply (models_iff root W R)|rewrite E; discriminate].
  - unfold class_of. rewrite kind_class. destruct (class (snd s)) eqn:Ec; try apply sound_nil.
    + apply (sound_if s "fEmitterSpectrum" REmitter); [exact G|rewrite Ec; right; left; reflexivity|discriminate|].
      apply (find_in_found (emitters root) REmitter s "fEmitterSpectrum" G); [rewrite Ec; right; left; reflexivity|intros; apply (emitters_iff root W R)].
    + assert (Ir : In ("fLinkedGeometry"%string, RGeometry) (refs (class (snd s)))) by (rewrite Ec; right; left; reflexivity).
      assert (Nt : text "fLinkedGeometry" s <> []) by (apply (needed_text s _ _ G Ir); rewrite Ec; right; left; auto).
      cbv zeta. apply sound_app; [destruct (linked_to s _ _ G Ir Nt) as (q & M); apply (find_geo_found s _ G Ir Nt) in M; rewrite M; apply sound_nil|].
      apply (sound_link s "fLinkedGeometry" RGeometry _ G Ir); [discriminate|exact Nt|]. apply (find_geo_found s _ G Ir Nt).
    + apply (sound_if s "fEmitter" REmitter); [exact G|rewrite Ec; right; left; reflexivity|discriminate|].
      apply (find_in_found (emitters root) REmitter s "fEmitter" G); [rewrite Ec; right; left; reflexivity|intros; apply (emitters_iff root W R)].
    + apply sound_flat. intros x Ix. destruct (those_good root CPinPatch s x G Ix) as (Gx & Cx).
      assert (Ir : In ("fToWiringObject"%string, RGeometry) (refs (class (snd x)))) by (rewrite Cx; left; reflexivity).
      apply (sound_if x "fToWiringObject" RGeometry); [exact Gx|exact Ir|discriminate|]. apply (find_geo_found x _ Gx Ir).
    + assert (Ir : In ("fLinkedGeometry"%string, RGeometry) (refs (class (snd s)))) by (rewrite Ec; right; left; reflexivity).
      apply (sound_if s "fLinkedGeometry" RGeometry); [exact G|exact Ir|discriminate|]. apply (find_geo_found s _ G Ir).
Qed.
Lemma geo_complete s m q : In s (all_geos root) -> refers root (fst s) m q -> In (Link (fst s) m (To q)) (geo_own hash n root s).
Proof.
  intros I Rf. destruct (geo_spot s I) as (G & C). pose proof Rf as (o & k & A & Ir & _). rewrite G in A. injection A as <-. unfold geo_own. apply in_app_iff.
  assert (D : m = "fModelReference"%string \/ m <> "fModelReference"%string) by (destruct (string_dec m "fModelReference"); auto). destruct D as [->|D].
  - left. apply (refers_iff s _ RModel q G (model_ref _ C)) in Rf as (Nt & M); [|discriminate]. rewrite nlen_if.
    apply (find_in_found (models root) RModel s "fModelReference" G (model_ref _ C)) in M; [|intros; apply (models_iff root W R)|exact Nt].
    destruct (text "fModelReference" s) as [|x t] eqn:E; [contradiction|]. apply in_set, M.
  - right. unfold class_of. rewrite kind_class. 
    unfold geometry_classes in C. cbn [In] in C. repeat match type of C with _ \/ _ => destruct C as [Ec|C] end; try (destruct C; fail); symmetry in Ec; rewrite Ec in *; cbn [refs In] in Ir;
      repeat match type of Ir with _ \/ _ => destruct Ir as [Ir|Ir] end; try (destruct Ir; fail); injection Ir as <- <-; try (destruct D; reflexivity).
    + apply (in_if s "fEmitterSpectrum" REmitter _ q G); [rewrite Ec; right; left; reflexivity|discriminate| |exact Rf].
      apply (find_in_found (emitters root) REmitter s "fEmitterSpectrum" G); [rewrite Ec; right; left; reflexivity|intros; apply (emitters_iff root W R)].
    + assert (Ir : In ("fLinkedGeometry"%string, RGeometry) (refs (class (snd s)))) by (rewrite Ec; right; left; reflexivity).
      apply (refers_iff s _ RGeometry q G Ir) in Rf as (Nt & M); [|discriminate]. apply (find_geo_found s _ G Ir Nt) in M. cbv zeta. rewrite M. apply in_app_iff. right. left. reflexivity.
    + apply (in_if s "fEmitter" REmitter _ q G); [rewrite Ec; right; left; reflexivity|discriminate| |exact Rf].
      apply (find_in_found (emitters root) REmitter s "fEmitter" G); [rewrite Ec; right; left; reflexivity|intros; apply (emitters_iff root W R)].
    + assert (Ir : In ("fLinkedGeometry"%string, RGeometry) (refs (class (snd s)))) by (rewrite Ec; right; left; reflexivity).
      apply (in_if s "fLinkedGeometry" RGeometry _ q G Ir); [discriminate| |exact Rf]. apply (find_geo_found s _ G Ir).
Qed.

(** ** Where the objects are reached *)
Lemma down1 c s x : In x (down [c] s) <-> In x (those c s).
Proof.
  cbn [down]. rewrite in_flat_map. split; [intros (y & I & [->|[]]); exact I|]. intros I. exists x. split; [exact I|left; reflexivity].
Qed.
Lemma down_cons c cs s x : In x (down (c :: cs) s) <-> exists y, In y (those c s) /\ In x (down cs y).
Proof. cbn [down]. apply in_flat_map. Qed.
Lemma in_a_mode s cs c : good s -> class (snd s) = c -> chain 9 c = Some ([CDMXModes; CDmxMode] ++ cs) ->
  exists m, In m (modes root) /\ In s (down cs m).
Proof.
  intros G C Ch. assert (I : In s (down ([CDMXModes; CDmxMode] ++ cs) top)).
  { destruct s as (q, k). apply (found_iff root W R 9 c); [exact Ch|discriminate|]. auto. }
  rewrite down_app in I. apply in_flat_map in I. exact I.
Qed.
Lemma mode_spot m : In m (modes root) -> good m /\ class (snd m) = CDmxMode /\ List.length (fst m) = 2%nat.
Proof.
  destruct m as (p, o). intros I. apply (modes_iff root W R) in I as (A & C). split; [exact A|]. split; [exact C|]. cbn [fst snd] in *.
  rewrite <- (trail_length p root o A). rewrite (chain_trail root W R 9 [CDMXModes; CDmxMode] p o); [reflexivity|rewrite C; vm_compute; reflexivity|exact A].
Qed.
Lemma in_mode m s cs : In m (modes root) -> In s (down cs m) -> firstn 2 (fst s) = firstn 2 (fst m).
Proof.
  intros I H. destruct (mode_spot m I) as (_ & _ & Lm). destruct m as (p, o), s as (q, k). apply down_iff in H as (r & -> & _). cbn [fst] in *. rewrite firstn_app, Lm. cbn. apply app_nil_r.
Qed.
Lemma channel_names_means m s q t cs : In m (modes root) -> In s (down cs m) -> (In (t, q) (channel_names (mode_channels m)) <-> means root (fst s) RChannel q t).
Proof.
  intros I H. pose proof (in_mode m s cs I H) as E. destruct (mode_spot m I) as (G & C & _). destruct m as (p, o). rewrite (channel_names_iff root W R p o q t G C). cbn [means]. unfold same_mode. rewrite E. reflexivity.
Qed.
Lemma function_keys_means m s q t cs : In m (modes root) -> In s (down cs m) -> (In (t, q) (function_keys (mode_channels m)) <-> means root (fst s) RFunction q t).
Proof.
  intros I H. pose proof (in_mode m s cs I H) as E. destruct (mode_spot m I) as (G & C & _). destruct m as (p, o). rewrite (function_keys_iff root W R p o q t G C). cbn [means]. unfold same_mode. rewrite E. reflexivity.
Qed.

(** ** Channel functions *)
Lemma subset_find s : good s -> class (snd s) = CDmxSubChannelSet ->
  (text "fSubPhysicalUnit" s <> [] -> forall q, to (unit_by_ref hash n (use root) (units root) (text "fSubPhysicalUnit" s)) = To q <-> means root (fst s) RUnit q (text "fSubPhysicalUnit" s)) /\
  (text "fDMXProfile" s <> [] -> forall q, find_in hash n root (profiles root) (text "fDMXProfile" s) = To q <-> means root (fst s) RProfile q (text "fDMXProfile" s)).
Proof.
  intros G C. split.
  - intros N q. rewrite unit_eq. apply (found _ RUnit s _ G); [rewrite C; left; reflexivity|intros; apply (units_iff root W R)|exact N].
  - apply (find_in_found _ RProfile s _ G); [rewrite C; right; left; reflexivity|intros; apply (profiles_iff root W R)].
Qed.
Lemma subset_sound s : good s -> class (snd s) = CDmxSubChannelSet -> sound (subset_links hash n root s).
Proof.
  intros G C. destruct (subset_find s G C) as (F1 & F2). apply sound_app.
  - apply (sound_if s _ RUnit _ G); [rewrite C; left; reflexivity|discriminate|exact F1].
  - apply (sound_if s _ RProfile _ G); [rewrite C; right; left; reflexivity|discriminate|exact F2].
Qed.
Lemma subset_complete s m q : good s -> class (snd s) = CDmxSubChannelSet -> refers root (fst s) m q -> In (Link (fst s) m (To q)) (subset_links hash n root s).
Proof.
  intros G C Rf. destruct (subset_find s G C) as (F1 & F2). pose proof Rf as (o & k & A & Ir & _). rewrite G in A. injection A as <-. rewrite C in Ir. apply in_app_iff.
  destruct Ir as [Ir|[Ir|[]]]; injection Ir as <- <-.
  - left. apply (in_if s _ RUnit _ q G); [rewrite C; left; reflexivity|discriminate|exact F1|exact Rf].
  - right. apply (in_if s _ RProfile _ q G); [rewrite C; right; left; reflexivity|discriminate|exact F2|exact Rf].
Qed.
Lemma attribute_event_iff s c : good s -> class (snd s) = c -> c = CDmxLogicalChannel \/ c = CDmxChannelFunction ->
  sound [attribute_event root s] /\ forall q, refers root (fst s) "fAttribute" q -> In (Link (fst s) "fAttribute" (To q)) [attribute_event root s].
Proof.
  intros G C D. assert (Ir : In ("fAttribute"%string, RAttribute) (refs (class (snd s)))) by (rewrite C; destruct D as [->| ->]; left; reflexivity).
  assert (Nt : text "fAttribute" s <> []) by (apply (needed_text s _ _ G Ir); left; rewrite C; auto).
  destruct (needs_attribute root W R L s c G C D) as (q0 & E & _ & M). unfold attribute_event. rewrite E. cbn [attr_target]. split.
  - apply (sound_link s _ RAttribute _ G Ir); [discriminate|exact Nt|]. intros q. rewrite M. split; [intros [= ->]; reflexivity|intros ->; reflexivity].
  - intros q Rf. apply (refers_iff s _ RAttribute q G Ir) in Rf as (_ & Mq); [|discriminate]. apply M in Mq. subst q. left. reflexivity.
Qed.
Lemma function_find s : good s -> class (snd s) = CDmxChannelFunction -> forall m k l, In (m, k, l)
    [("fOnWheel", RWheel, wheels root); ("fEmitter", REmitter, emitters root); ("fFilter", RFilter, filters root);
     ("fColorSpace", RColorSpace, spaces root); ("fGamut", RGamut, gamuts root); ("fDMXProfile", RProfile, profiles root)]%string ->
  In (m, k) (refs (class (snd s))) /\ k <> RInitial /\ (text m s <> [] -> forall q, find_in hash n root l (text m s) = To q <-> means root (fst s) k q (text m s)).
Proof.
  intros G C m k l I.
  assert (H : In (m, k) (refs (class (snd s))) /\ k <> RInitial /\ forall q t, In (t, q) l <-> means root (fst s) k q t).
  { rewrite C. repeat (destruct I as [I|I]; [injection I as <- <- <-; (split; [cbn; tauto|]); (split; [discriminate|])|]).
    - apply (wheels_iff root W R).
    - apply (emitters_iff root W R).
    - apply (filters_iff root W R).
    - apply (spaces_iff root W R).
    - apply (gamuts_iff root W R).
    - apply (profiles_iff root W R).
    - destruct I. }
  destruct H as (Ir & Nk & Hl). split; [exact Ir|]. split; [exact Nk|]. apply (find_in_found l k s m G Ir Hl).
Qed.
Lemma function_sound s : good s -> class (snd s) = CDmxChannelFunction -> sound (function_ev root hash n s).
Proof.
  intros G C. unfold function_ev. apply (sound_app [attribute_event root s]); [apply (attribute_event_iff s _ G C); auto|]. unfold function_links.
  pose proof (function_find s G C) as F.
  assert (Y : forall m k l, In (m, k, l)
    [("fOnWheel", RWheel, wheels root); ("fEmitter", REmitter, emitters root); ("fFilter", RFilter, filters root);
     ("fColorSpace", RColorSpace, spaces root); ("fGamut", RGamut, gamuts root); ("fDMXProfile", RProfile, profiles root)]%string ->
     sound (if_text s m (find_in hash n root l))).
  { intros m k l I. destruct (F m k l I) as (Ir & Nk & H). exact (sound_if s m k _ G Ir Nk H). }
  apply sound_app; [apply (Y _ RWheel); cbn; tauto|]. apply sound_app; [apply (Y _ REmitter); cbn; tauto|]. apply sound_app; [apply (Y _ RFilter); cbn; tauto|].
  apply sound_app; [apply (Y _ RColorSpace); cbn; tauto|]. apply sound_app; [apply (Y _ RGamut); cbn; tauto|]. apply sound_app; [apply (Y _ RProfile); cbn; tauto|].
  apply sound_flat. intros x I. destruct (those_good root _ s x G I) as (Gx & Cx). apply subset_sound; assumption.
Qed.
Lemma function_complete s m q : good s -> class (snd s) = CDmxChannelFunction -> m <> "fModeMaster"%string -> refers root (fst s) m q ->
  In (Link (fst s) m (To q)) (function_ev root hash n s).
Proof.
  intros G C Nm Rf. pose proof Rf as (o & k & A & Ir & _). rewrite G in A. injection A as <-. rewrite C in Ir. unfold function_ev, function_links. pose proof (function_find s G C) as F.
  assert (X : forall m k l, In (m, k, l)
    [("fOnWheel", RWheel, wheels root); ("fEmitter", REmitter, emitters root); ("fFilter", RFilter, filters root);
     ("fColorSpace", RColorSpace, spaces root); ("fGamut", RGamut, gamuts root); ("fDMXProfile", RProfile, profiles root)]%string ->
     refers root (fst s) m q -> In (Link (fst s) m (To q)) (if_text s m (find_in hash n root l))).
  { intros m0 k0 l I Rf0. destruct (F m0 k0 l I) as (Ir0 & Nk & H). exact (in_if s m0 k0 _ q G Ir0 Nk H Rf0). }
  cbn [refs In] in Ir. change (In (Link (fst s) m (To q)) ([attribute_event root s] ++
    if_text s "fOnWheel" (find_in hash n root (wheels root)) ++ if_text s "fEmitter" (find_in hash n root (emitters root)) ++
    if_text s "fFilter" (find_in hash n root (filters root)) ++ if_text s "fColorSpace" (find_in hash n root (spaces root)) ++
    if_text s "fGamut" (find_in hash n root (gamuts root)) ++ if_text s "fDMXProfile" (find_in hash n root (profiles root)) ++
    flat_map (subset_links hash n root) (those CDmxSubChannelSet s))).
  rewrite !in_app_iff.
  repeat match type of Ir with _ \/ _ => destruct Ir as [Ir|Ir] end; try (destruct Ir; fail); injection Ir as <- <-.
  - left. apply (attribute_event_iff s _ G C); auto.
  - right. left. apply (X _ RWheel _); [cbn; tauto|exact Rf].
  - do 2 right. left. apply (X _ REmitter _); [cbn; tauto|exact Rf].
  - do 3 right. left. apply (X _ RFilter _); [cbn; tauto|exact Rf].
  - do 4 right. left. apply (X _ RColorSpace _); [cbn; tauto|exact Rf].
  - do 5 right. left. apply (X _ RGamut _); [cbn; tauto|exact Rf].
  - do 6 right. left. apply (X _ RProfile _); [cbn; tauto|exact Rf].
  - destruct Nm. reflexivity.
Qed.
Lemma function_sub_complete s x m q : good s -> In x (those CDmxSubChannelSet s) -> refers root (fst x) m q -> In (Link (fst x) m (To q)) (function_ev root hash n s).
Proof.
  intros G I Rf. destruct (those_good root _ s x G I) as (Gx & Cx). right. unfold function_links. rewrite !in_app_iff. do 6 right. apply in_flat_map. exists x. split; [exact I|]. apply subset_complete; assumption.
Qed.

(** ** Channels *)
Lemma logical_sound s : good s -> class (snd s) = CDmxLogicalChannel -> sound (logical_ev root hash n s).
Proof.
  intros G C. apply (sound_app [attribute_event root s]); [apply (attribute_event_iff s _ G C); auto|]. apply sound_flat. intros x I. destruct (those_good root _ s x G I) as (Gx & Cx). apply function_sound; assumption.
Qed.
Lemma initial_found s q : good s -> class (snd s) = CDmxChannel -> text "fInitialFunction" s <> [] ->
  to (linear (function_keys [pure_channel s]) (text "fInitialFunction" s)) = To q <-> means root (fst s) RInitial q (text "fInitialFunction" s).
Proof.
  intros G C N. apply (found _ RInitial s _ G); [rewrite C; right; left; reflexivity| |exact N]. intros q' t. destruct s as (p, o). apply (channel_keys_iff root W p o q' t G C).
Qed.
Lemma initial_default s : good s -> class (snd s) = CDmxChannel ->
  match h_logical (pure_channel s) with {| l_funcs := f :: _ |} :: _ => f_id f = fst s ++ [0; 0]%nat /\ at_place root (fst s ++ [0; 0]%nat) <> None
  | _ => at_place root (fst s ++ [0; 0]%nat) = None end.
Proof.
  destruct s as (p, c). unfold good_spot. cbn [fst snd]. intros G C. unfold pure_channel. cbn [h_logical]. pose proof (well_at _ _ _ W G) as Wc. rewrite those_below; [|exact Wc|rewrite C; reflexivity].
  rewrite at_app, G. pose proof (nth_below p c 0) as E. destruct (below (p, c)) as [|s l] eqn:B; cbn [map].
  - cbn in E. cbn [at_place]. destruct (children c); [reflexivity|discriminate].
  - cbn [at_place]. cbn in E |- *. destruct (children c) as [|k ks] eqn:Ek; [discriminate|]. injection E as ->. cbn. unfold pure_logical.
    assert (Ak : at_place root (p ++ [0%nat]) = Some k) by (rewrite at_app, G; cbn; rewrite Ek; reflexivity).
    assert (Ck : class k = CDmxLogicalChannel).
    { destruct Wc as [d vs ks' F _]. cbn in C, Ek. subst d ks'. inversion F as [|? ? H _]; subst. destruct H as [<-|[]]. reflexivity. }
    rewrite those_below; [|exact (well_at _ _ _ W Ak)|rewrite Ck; reflexivity]. 
    match goal with |- match map pure_function ?l with _ => _ end => assert (E : nth_error l 0 = match nth_error (children k) 0 with Some k => Some ((p ++ [0%nat]) ++ [0%nat], k) | None => None end) by apply nth_below; revert E; generalize l end.
    intros [|f fs] E; cbn [map].
    + cbn in E. destruct (children k); [reflexivity|discriminate].
    + cbn in E |- *. destruct (children k); [discriminate|]. injection E as ->. cbn. rewrite <- app_assoc. split; [reflexivity|discriminate].
Qed.
Lemma initial_sound s : good s -> class (snd s) = CDmxChannel -> sound (initial_ev s).
Proof.
  intros G C. assert (Ir : In ("fInitialFunction"%string, RInitial) (refs (class (snd s)))) by (rewrite C; right; left; reflexivity). unfold initial_ev.
  pose proof (fun q => initial_found s q G C) as F. pose proof (initial_default s G C) as D. destruct (text "fInitialFunction" s) as [|x t] eqn:E.
  - rewrite text_field in E.
    assert (No : at_place root (fst s ++ [0; 0]%nat) = None -> forall e, tidy (Report (fst s) e)).
    { intros An e. exists (snd s), "fInitialFunction"%string. split; [exact G|]. split; [rewrite C; cbn; tauto|]. exists (snd s), RInitial. split; [exact G|]. split; [exact Ir|]. split; [exact E|].
      intros q (o & k & A & _ & H). rewrite G in A. injection A as <-. rewrite E in H. destruct H as [(H & _)|(_ & _ & -> & H)]; contradiction. }
    destruct (h_logical (pure_channel s)) as [|[a [|f fs]] ls]; [intros e [<-|[]]; apply No, D|intros e [<-|[]]; apply No, D|]. destruct D as (Df & Da). intros e [<-|[]].
    exists (snd s), RInitial. split; [exact G|]. split; [exact Ir|]. right. rewrite Df. auto.
  - destruct (linked_to s _ _ G Ir) as (q & M); [rewrite E; discriminate|]. rewrite E in M. assert (Tq : to (linear (function_keys [pure_channel s]) (x :: t)) = To q) by (apply F; [discriminate|exact M]). rewrite Tq.
    intros e [<-|[]]. exists (snd s), RInitial. split; [exact G|]. split; [exact Ir|]. left. rewrite <- text_field, E. split; [discriminate|exact M].
Qed.
Lemma initial_complete s q : good s -> class (snd s) = CDmxChannel -> refers root (fst s) "fInitialFunction" q -> In (Link (fst s) "fInitialFunction" (To q)) (initial_ev s).
Proof.
  intros G C (o & k & A & Ir & H). rewrite G in A. injection A as <-. assert (k = RInitial) by (apply (refs_one CDmxChannel "fInitialFunction"); [rewrite <- C; exact Ir|right; left; reflexivity]). subst k.
  unfold initial_ev. pose proof (fun q => initial_found s q G C) as F. pose proof (initial_default s G C) as D. rewrite <- text_field in H. destruct (text "fInitialFunction" s) as [|x t] eqn:E.
  - destruct H as [(H & _)|(_ & _ & -> & Hq)]; [contradiction|]. destruct (h_logical (pure_channel s)) as [|[a [|f fs]] ls]; [contradiction|contradiction|]. destruct D as (Df & _). rewrite Df. left. reflexivity.
  - destruct H as [(_ & M)|(_ & H & _)]; [|discriminate H]. apply in_set. apply F; [discriminate|exact M].
Qed.
Lemma geo_target_found s q : good s -> class (snd s) = CDmxChannel -> text "fGeomRef" s <> [] -> (geo_target root s = To q <-> means root (fst s) RGeometry q (text "fGeomRef" s)).
Proof.
  intros G C N. assert (Ir : In ("fGeomRef"%string, RGeometry) (refs (class (snd s)))) by (rewrite C; left; reflexivity).
  pose proof (found (flat_map flatten (geos root)) RGeometry s _ G Ir (geos_iff root W R) N q) as F. unfold geo_target. destruct (text "fGeomRef" s); [contradiction|exact F].
Qed.
Lemma channel_sound s : good s -> class (snd s) = CDmxChannel -> sound (channel_ev root hash n s).
Proof.
  intros G C. assert (Ir : In ("fGeomRef"%string, RGeometry) (refs (class (snd s)))) by (rewrite C; left; reflexivity). unfold channel_ev. apply sound_app; [|apply sound_app].
  - apply sound_set; [exact G| |right; rewrite C; cbn; tauto]. pose proof (fun q => geo_target_found s q G C) as F.
    apply (sound_ref s _ RGeometry _ G Ir); [discriminate|unfold geo_target; destruct (text "fGeomRef" s); [discriminate|apply to_made]|].
    intros q. rewrite (refers_iff s _ RGeometry q G Ir) by discriminate. destruct (text "fGeomRef" s) as [|x t] eqn:E.
    + unfold geo_target. rewrite E. split; [discriminate|intros (D & _); contradiction].
    + rewrite F by discriminate. split; [intros M; split; [discriminate|exact M]|tauto].
  - apply sound_flat. intros x I. destruct (those_good root _ s x G I) as (Gx & Cx). apply logical_sound; assumption.
  - apply initial_sound; assumption.
Qed.
Lemma channel_own_complete s m q : good s -> class (snd s) = CDmxChannel -> refers root (fst s) m q -> In (Link (fst s) m (To q)) (channel_ev root hash n s).
Proof.
  intros G C Rf. pose proof Rf as (o & k & A & Ir & _). rewrite G in A. injection A as <-. rewrite C in Ir. unfold channel_ev. rewrite !in_app_iff. destruct Ir as [Ir|[Ir|[]]]; injection Ir as <- <-.
  - left. apply in_set. apply (refers_iff s _ RGeometry q G) in Rf as (N & M); [|rewrite C; left; reflexivity|discriminate]. apply (geo_target_found s q G C N), M.
  - right. right. apply initial_complete; assumption.
Qed.

(** ** Modes *)
Lemma empty_channel m : linear (channel_names (mode_channels m)) [] = None.
Proof.
  destruct (linear (channel_names (mode_channels m)) []) as [q|] eqn:E; [|reflexivity]. apply linear_some in E as (a & k & b & E & Sn & _).
  assert (I : In (k, q) (channel_names (mode_channels m))) by (rewrite E; apply in_elt). apply in_map_iff in I as (c & [= <- _] & _). unfold same_name, channel_text in Sn. apply (f_equal (@List.length N)) in Sn.
  unfold make_lower in Sn. rewrite map_length, app_length in Sn. cbn in Sn. lia.
Qed.
Lemma empty_function m : linear (function_keys (mode_channels m)) [] = None.
Proof.
  destruct (linear (function_keys (mode_channels m)) []) as [q|] eqn:E; [|reflexivity]. apply linear_some in E as (a & k & b & E & Sn & _).
  assert (I : In (k, q) (function_keys (mode_channels m))) by (rewrite E; apply in_elt). unfold function_keys in I. apply in_flat_map in I as (c & _ & I). apply in_flat_map in I as (l & _ & I). apply in_map_iff in I as (p & [= <- _] & _).
  unfold same_name in Sn. apply (f_equal (@List.length N)) in Sn. unfold make_lower in Sn. rewrite map_length, app_length in Sn. cbn in Sn. lia.
Qed.
Lemma by_channel m s cs f q : In m (modes root) -> In s (down cs m) -> good s -> In (f, RChannel) (refs (class (snd s))) ->
  (to (linear (channel_names (mode_channels m)) (text f s)) = To q <-> refers root (fst s) f q).
Proof.
  intros I H G Ir. rewrite (refers_iff s f RChannel q G Ir) by discriminate. destruct (text f s) as [|x t] eqn:E.
  - rewrite empty_channel. split; [discriminate|intros (D & _); contradiction].
  - rewrite <- E. rewrite (found _ RChannel s f G Ir); [|intros; eapply channel_names_means; eassumption|rewrite E; discriminate]. rewrite E. split; [intros M; split; [discriminate|exact M]|intros (_ & M); exact M].
Qed.
Lemma by_function m s cs f q : In m (modes root) -> In s (down cs m) -> good s -> In (f, RFunction) (refs (class (snd s))) ->
  (to (linear (function_keys (mode_channels m)) (text f s)) = To q <-> refers root (fst s) f q).
Proof.
  intros I H G Ir. rewrite (refers_iff s f RFunction q G Ir) by discriminate. destruct (text f s) as [|x t] eqn:E.
  - rewrite empty_function. split; [discriminate|intros (D & _); contradiction].
  - rewrite <- E. rewrite (found _ RFunction s f G Ir); [|intros; eapply function_keys_means; eassumption|rewrite E; discriminate]. rewrite E. split; [intros M; split; [discriminate|exact M]|intros (_ & M); exact M].
Qed.
Lemma relation_sound m s : In m (modes root) -> In s (down [CRelations; CDmxRelation] m) -> sound (relation_ev m s).
Proof.
  intros I H. destruct (mode_spot m I) as (Gm & _). pose proof (down_good root _ m s Gm H) as G. pose proof (down_class [CRelations] CDmxRelation m s H) as C. unfold relation_ev.
  apply (sound_app [_] [_]).
  - assert (Ir : In ("fMasterDmxChannel"%string, RChannel) (refs (class (snd s)))) by (rewrite C; left; reflexivity). apply (sound_ref s _ RChannel _ G Ir); [discriminate|apply to_made|]. intros q. exact (by_channel m s _ _ q I H G Ir).
  - assert (Ir : In ("fSlaveChannelFunction"%string, RFunction) (refs (class (snd s)))) by (rewrite C; right; left; reflexivity). apply (sound_ref s _ RFunction _ G Ir); [discriminate|apply to_made|]. intros q. exact (by_function m s _ _ q I H G Ir).
Qed.
Lemma macro_value_down m s cs x : In s (down [CFTMacros; CMacro] m) -> In x (down cs s) -> In x (down ([CFTMacros; CMacro] ++ cs) m).
Proof. intros H Hx. rewrite down_app. apply in_flat_map. exists s. auto. Qed.
Lemma macro_sound m s : In m (modes root) -> In s (down [CFTMacros; CMacro] m) -> sound (macro_ev m s).
Proof.
  intros I H. destruct (mode_spot m I) as (Gm & _). pose proof (down_good root _ m s Gm H) as G. pose proof (down_class [CFTMacros] CMacro m s H) as C. unfold macro_ev. apply sound_app; [|apply sound_app].
  - assert (Ir : In ("fChannelFunction"%string, RFunction) (refs (class (snd s)))) by (rewrite C; left; reflexivity).
    apply (sound_if s _ RFunction _ G Ir); [discriminate|]. intros N q. rewrite (by_function m s _ _ q I H G Ir). rewrite (refers_iff s _ RFunction q G Ir) by discriminate. tauto.
  - apply sound_flat. intros x Ix. pose proof (macro_value_down m s _ x H Ix) as Hx. pose proof (down_good root _ m x Gm Hx) as Gx.
    pose proof (down_class [CMacroDMX; CMacroDMXStep] CMacroDMXValue s x Ix) as Cx. 
    assert (Ir : In ("fDMXChannel"%string, RChannel) (refs (class (snd x)))) by (rewrite Cx; left; reflexivity). apply sound_set; [exact Gx| |right; rewrite Cx; cbn; tauto].
    apply (sound_ref x _ RChannel _ Gx Ir); [discriminate|apply to_made|]. intros q. exact (by_channel m x _ _ q I Hx Gx Ir).
  - apply sound_flat. intros x Ix. pose proof (macro_value_down m s _ x H Ix) as Hx. pose proof (down_good root _ m x Gm Hx) as Gx.
    pose proof (down_class [CMacroVisual; CMacroVisualStep] CMacroVisualValue s x Ix) as Cx. unfold visual_value_ev.
    assert (Ir : In ("fChannelFunctionRef"%string, RFunction) (refs (class (snd x)))) by (rewrite Cx; left; reflexivity).
    assert (B : sound [Link (fst x) "fChannelFunctionRef" (to (linear (function_keys (mode_channels m)) (text "fChannelFunctionRef" x)))]).
    { apply (sound_ref x _ RFunction _ Gx Ir); [discriminate|apply to_made|]. intros q. exact (by_function m x _ _ q I Hx Gx Ir). }
    destruct (to _); [apply sound_nil|exact B|exact B].
Qed.
Lemma mode_geometry_iff s q : good s -> class (snd s) = CDmxMode ->
  ((match text "fGeomRef" s with [] => Null | _ => to (linear (map unique_name_at (geo_spots root)) (text "fGeomRef" s)) end) = To q <-> refers root (fst s) "fGeomRef" q).
Proof.
  intros G C. assert (Ir : In ("fGeomRef"%string, RTopGeometry) (refs (class (snd s)))) by (rewrite C; left; reflexivity).
  rewrite (refers_iff s _ RTopGeometry q G Ir) by discriminate. pose proof (found _ RTopGeometry s _ G Ir (fun q t => top_geos_iff root W R (fst s) q t)) as F.
  destruct (text "fGeomRef" s) as [|x t]; [split; [discriminate|intros (D & _); contradiction]|]. rewrite F by discriminate. split; [intros M; split; [discriminate|exact M]|tauto].
Qed.
Lemma mode_sound m : In m (modes root) -> sound (mode_ev root hash n m).
Proof.
  intros I. destruct (mode_spot m I) as (G & C & _). unfold mode_ev. repeat apply sound_app.
  - unfold mode_geometry. rewrite nlen_if. apply sound_set; [exact G| |right; rewrite C; cbn; tauto].
    apply (sound_ref m _ RTopGeometry _ G); [rewrite C; left; reflexivity|discriminate|destruct (text "fGeomRef" m); [discriminate|apply to_made]|]. intros q. exact (mode_geometry_iff m q G C).
  - apply sound_flat. intros s Hs. apply channel_sound; [exact (down_good root _ m s G Hs)|exact (down_class [CDMXChannels] CDmxChannel m s Hs)].
  - apply sound_flat. intros s Hs. apply relation_sound; assumption.
  - apply sound_flat. intros s Hs. apply macro_sound; assumption.
Qed.
(** Mode masters. *)
Lemma master_target m s cs q : In m (modes root) -> In s (down cs m) -> good s -> class (snd s) = CDmxChannelFunction -> text "fModeMaster" s <> [] ->
  ((match to (linear (channel_names (mode_channels m)) (text "fModeMaster" s)) with
    | Null => to (linear (function_keys (mode_channels m)) (text "fModeMaster" s)) | x => x end) = To q <-> refers root (fst s) "fModeMaster" q).
Proof.
  intros I H G C N. assert (Ir : In ("fModeMaster"%string, RMaster) (refs (class (snd s)))) by (rewrite C; cbn; tauto).
  rewrite (refers_iff s _ RMaster q G Ir) by discriminate. rewrite text_field in *. destruct (proj1 L (fst s) (snd s) _ RMaster G Ir) as (_ & U). destruct (U N) as (q0 & M0 & U0). clear U.
  assert (Hc : forall q t, In (t, q) (channel_names (mode_channels m)) -> means root (fst s) RMaster q t).
  { intros q' t X. apply (channel_names_means m s q' t cs I H) in X as (X & Y). split; [left; exact X|exact Y]. }
  assert (Hf : forall q t, In (t, q) (function_keys (mode_channels m)) -> means root (fst s) RMaster q t).
  { intros q' t X. apply (function_keys_means m s q' t cs I H) in X as (X & Y). split; [right; exact X|exact Y]. }
  assert (K : forall l, (forall q t, In (t, q) l -> means root (fst s) RMaster q t) -> linear l (field "fModeMaster" (snd s)) = None \/ linear l (field "fModeMaster" (snd s)) = Some q0).
  { intros l Hl. destruct (linear l (field "fModeMaster" (snd s))) as [q'|] eqn:E; [right|left; reflexivity]. apply linear_some in E as (a & k & b & -> & Sn & _). f_equal. apply (U0 q' k); [apply Hl, in_elt|exact Sn]. }
  assert (K2 : forall l, In (field "fModeMaster" (snd s), q0) l -> linear l (field "fModeMaster" (snd s)) <> None).
  { intros l Il E. unfold linear in E. destruct (find _ l) eqn:F; [discriminate|]. pose proof (find_none _ _ F _ Il) as X. cbn [fst] in X. assert (Y : txeq (field "fModeMaster" (snd s)) (field "fModeMaster" (snd s)) = true) by (apply txeq_same_name; reflexivity). congruence. }
  assert (M : (match to (linear (channel_names (mode_channels m)) (field "fModeMaster" (snd s))) with Null => to (linear (function_keys (mode_channels m)) (field "fModeMaster" (snd s))) | x => x end) = To q0).
  { destruct (K _ Hc) as [E|E]; rewrite E; cbn [to]; [|reflexivity]. destruct (K _ Hf) as [E'|E']; rewrite E'; [|reflexivity]. exfalso. destruct M0 as ([M0|M0] & Sm).
    - refine (K2 _ _ E). apply (channel_names_means m s q0 _ cs I H). split; assumption.
    - refine (K2 _ _ E'). apply (function_keys_means m s q0 _ cs I H). split; assumption. }
  rewrite M. split.
  - intros [= <-]. auto.
  - intros (_ & Mq). rewrite (U0 q _ Mq eq_refl). reflexivity.
Qed.
Lemma master_path m h s : In m (modes root) -> In h (channel_spots m) -> In s (down [CDmxLogicalChannel; CDmxChannelFunction] h) ->
  In s (down [CDMXChannels; CDmxChannel; CDmxLogicalChannel; CDmxChannelFunction] m).
Proof. intros I Hh Hs. change [CDMXChannels; CDmxChannel; CDmxLogicalChannel; CDmxChannelFunction] with ([CDMXChannels; CDmxChannel] ++ [CDmxLogicalChannel; CDmxChannelFunction]). rewrite down_app. apply in_flat_map. exists h. auto. Qed.
Lemma masters_sound m : In m (modes root) -> sound (masters_ev m).
Proof.
  intros I. destruct (mode_spot m I) as (Gm & _). unfold masters_ev. apply sound_flat. intros h Hh. apply sound_flat. intros s Hs. pose proof (master_path m h s I Hh Hs) as H.
  pose proof (down_good root _ m s Gm H) as G. pose proof (down_class [CDMXChannels; CDmxChannel; CDmxLogicalChannel] CDmxChannelFunction m s H) as C. unfold master_ev.
  assert (Ir : In ("fModeMaster"%string, RMaster) (refs (class (snd s)))) by (rewrite C; cbn; tauto).
  pose proof (fun q => master_target m s _ q I H G C) as F. destruct (text "fModeMaster" s) as [|x t] eqn:E; [apply sound_nil|].
  destruct (linked_to s _ _ G Ir) as (q & M); [rewrite E; discriminate|]. assert (Rf : refers root (fst s) "fModeMaster" q) by (apply (refers_iff s _ RMaster q G Ir); [discriminate|]; split; [rewrite E; discriminate|exact M]).
  pose proof Rf as Rf'. apply F in Rf'; [|discriminate]. destruct (to (linear (channel_names (mode_channels m)) (x :: t))); [|injection Rf' as ->|discriminate Rf'].
  - rewrite Rf'. intros e [<-|[]]. exact Rf.
  - intros e [<-|[]]. exact Rf.
Qed.
Lemma master_complete m h s q : In m (modes root) -> In h (channel_spots m) -> In s (down [CDmxLogicalChannel; CDmxChannelFunction] h) ->
  refers root (fst s) "fModeMaster" q -> In (Link (fst s) "fModeMaster" (To q)) (master_ev m h s).
Proof.
  intros I Hh Hs Rf. destruct (mode_spot m I) as (Gm & _). pose proof (master_path m h s I Hh Hs) as H.
  pose proof (down_good root _ m s Gm H) as G. pose proof (down_class [CDMXChannels; CDmxChannel; CDmxLogicalChannel] CDmxChannelFunction m s H) as C. unfold master_ev.
  assert (N : text "fModeMaster" s <> []) by (apply (refers_iff s _ RMaster q G) in Rf as (N & _); [exact N|rewrite C; cbn; tauto|discriminate]).
  apply (master_target m s _ q I H G C N) in Rf. destruct (text "fModeMaster" s) as [|x t]; [contradiction|].
  destruct (to (linear (channel_names (mode_channels m)) (x :: t))); [rewrite Rf|injection Rf as ->|discriminate]; left; reflexivity.
Qed.

(** ** Personalities, attributes and wheels *)
Lemma fixture_spot cs c s : chain 9 c = Some cs -> cs <> [] -> In s (down cs top) <-> good s /\ class (snd s) = c.
Proof. intros Ch N. destruct s as (q, k). apply (found_iff root W R 9 c cs q k Ch N). Qed.
Definition personality_spot s := fixture_spot [CProtocols; CFTRDM; CSoftwareVersionID; CDMXPersonality] CDMXPersonality s ltac:(vm_compute; reflexivity) ltac:(discriminate).
Definition slot_spot s := fixture_spot [CWheels; CWheel; CWheelSlot] CWheelSlot s ltac:(vm_compute; reflexivity) ltac:(discriminate).
Lemma personality_iff s q : good s -> class (snd s) = CDMXPersonality ->
  (to (linear (map name_at (modes root)) (text "fDMXMode" s)) = To q <-> refers root (fst s) "fDMXMode" q).
Proof.
  intros G C. assert (Ir : In ("fDMXMode"%string, RMode) (refs (class (snd s)))) by (rewrite C; left; reflexivity).
  assert (N : text "fDMXMode" s <> []) by (apply (needed_text s _ _ G Ir); right; right; rewrite C; auto).
  rewrite (refers_iff s _ RMode q G Ir) by discriminate. rewrite (found _ RMode s _ G Ir (modes_names_iff root W R) N). tauto.
Qed.
Lemma slot_find s : good s -> class (snd s) = CWheelSlot -> text "fFilter" s <> [] -> forall q, find_in hash n root (filters root) (text "fFilter" s) = To q <-> means root (fst s) RFilter q (text "fFilter" s).
Proof. intros G C. apply (find_in_found _ RFilter s _ G); [rewrite C; left; reflexivity|intros; apply (filters_iff root W R)]. Qed.
Lemma feature_fold {A} t (y : A) : forall (gs : list (list (list N * A))) acc, (forall g x, In g gs -> linear g t = Some x -> x = y) -> (acc = y \/ exists g, In g gs /\ linear g t <> None) ->
  fold_left (fun x g => match linear g t with Some y => y | None => x end) gs acc = y.
Proof.
  induction gs as [|g gs IH]; intros acc H D; cbn [fold_left]; [destruct D as [D|(g & [] & _)]; exact D|]. apply IH; [intros g' x I; apply H; right; exact I|].
  destruct (linear g t) as [x|] eqn:E; [left; apply (H g x (or_introl eq_refl) E)|]. destruct D as [D|(g' & [<-|I] & Ng)]; [left; exact D|contradiction|right; exists g'; auto].
Qed.
Lemma feature_found s q : good s -> class (snd s) = CAttribute -> text "fFeature" s <> [] -> (find_feature (features root) (text "fFeature" s) = To q <-> means root (fst s) RFeature q (text "fFeature" s)).
Proof.
  intros G C N. assert (Ir : In ("fFeature"%string, RFeature) (refs (class (snd s)))) by (rewrite C; right; left; reflexivity). rewrite text_field in *.
  destruct (proj1 L (fst s) (snd s) _ RFeature G Ir) as (_ & U). destruct (U N) as (q0 & M0 & U0). clear U.
  assert (E : find_feature (features root) (field "fFeature" (snd s)) = To q0).
  { apply feature_fold.
    - intros g x Ig E. apply linear_some in E as (a & k & b & -> & Sn & _). assert (Ic : In (k, x) (List.concat (features root))) by (apply in_concat; exists (a ++ (k, x) :: b); split; [exact Ig|apply in_elt]).
      apply (features_iff root W R (fst s)) in Ic as (q' & -> & M'). f_equal. exact (U0 q' k M' Sn).
    - right. assert (Ic : In (field "fFeature" (snd s), To q0) (List.concat (features root))) by (apply (features_iff root W R (fst s)); exists q0; auto).
      apply in_concat in Ic as (g & Ig & I). exists g. split; [exact Ig|]. unfold linear. destruct (find _ g) eqn:F; [discriminate|]. pose proof (find_none _ _ F _ I) as X. cbn [fst] in X.
      assert (Y : txeq (field "fFeature" (snd s)) (field "fFeature" (snd s)) = true) by (apply txeq_same_name; reflexivity). congruence. }
  rewrite E. split; [intros [= <-]; exact M0|]. intros M. rewrite (U0 q _ M eq_refl). reflexivity.
Qed.
Lemma main_found s q : good s -> class (snd s) = CAttribute -> text "fMainAttribute" s <> [] ->
  (attr_target (attribute_of root (text "fMainAttribute" s)) = To q <-> means root (fst s) RAttribute q (text "fMainAttribute" s)).
Proof.
  intros G C N. destruct (attribute_settled root W R L s "fMainAttribute" G) as (q0 & E & _ & M); [rewrite C; cbn; tauto|exact N|]. rewrite E, M. cbn [attr_target]. split; [intros [= ->]; reflexivity|intros ->; reflexivity].
Qed.
Lemma group_found s q : good s -> class (snd s) = CAttribute -> text "fActivationGroup" s <> [] ->
  (to (linear (groups root) (text "fActivationGroup" s)) = To q <-> means root (fst s) RActivationGroup q (text "fActivationGroup" s)).
Proof. intros G C N. apply (found _ RActivationGroup s _ G); [rewrite C; left; reflexivity|intros; apply (groups_iff root W R)|exact N]. Qed.
Lemma attribute_sound s : good s -> class (snd s) = CAttribute -> sound (attribute_ev root s).
Proof.
  intros G C. unfold attribute_ev. apply sound_app.
  - pose proof (fun q => group_found s q G C) as F. destruct (text "fActivationGroup" s) as [|x t] eqn:E; [apply sound_nil|].
    apply (set_link s _ RActivationGroup _ _ G); [rewrite C; left; reflexivity|discriminate|rewrite E; discriminate|]. intros q. rewrite E. apply F. discriminate.
  - pose proof (fun q => feature_found s q G C) as F. destruct (text "fFeature" s) as [|x t] eqn:E; [apply sound_nil|]. apply sound_app.
    + apply (set_link s _ RFeature _ _ G); [rewrite C; right; left; reflexivity|discriminate|rewrite E; discriminate|]. intros q. rewrite E. apply F. discriminate.
    + pose proof (fun q => main_found s q G C) as F'. destruct (text "fMainAttribute" s) as [|y u] eqn:E'; [apply sound_nil|].
      apply (set_link s _ RAttribute _ _ G); [rewrite C; cbn; tauto|discriminate|rewrite E'; discriminate|]. intros q. rewrite E'. apply F'. discriminate.
Qed.
Lemma attribute_complete s m q : good s -> class (snd s) = CAttribute -> refers root (fst s) m q -> In (Link (fst s) m (To q)) (attribute_ev root s).
Proof.
  intros G C Rf. pose proof Rf as (o & k & A & Ir & _). rewrite G in A. injection A as <-.
  assert (Nk : k <> RInitial) by (clear - C Ir; rewrite C in Ir; destruct Ir as [Ir|[Ir|[Ir|[]]]]; injection Ir as <- <-; discriminate).
  destruct (proj1 (refers_iff s m k q G Ir Nk) Rf) as (N & M). clear Rf Nk.
  rewrite C in Ir. unfold attribute_ev. rewrite in_app_iff. destruct Ir as [Ir|[Ir|[Ir|[]]]]; injection Ir as <- <-.
  - left. apply (group_found s q G C N) in M. destruct (text "fActivationGroup" s); [contradiction|]. apply in_set, M.
  - right. apply (feature_found s q G C N) in M. destruct (text "fFeature" s); [contradiction|]. apply in_app_iff. left. apply in_set, M.
  - right. apply (main_found s q G C N) in M. assert (N' : text "fFeature" s <> []) by (rewrite text_field in *; apply (proj2 L (fst s) (snd s) G C N)).
    destruct (text "fFeature" s); [contradiction|]. apply in_app_iff. right. destruct (text "fMainAttribute" s); [contradiction|]. apply in_set, M.
Qed.

(** ** Everything *)
Lemma all_sound : sound (all_ev root hash n).
Proof.
  unfold all_ev. repeat apply sound_app.
  - rewrite all_geo_links_flat. apply sound_flat. intros s. apply geo_sound.
  - apply sound_flat. apply mode_sound.
  - apply sound_flat. apply masters_sound.
  - apply sound_flat. intros s Hs. apply personality_spot in Hs as (G & C). 
    assert (Ir : In ("fDMXMode"%string, RMode) (refs (class (snd s)))) by (rewrite C; left; reflexivity). assert (N : text "fDMXMode" s <> []) by (apply (needed_text s _ _ G Ir); right; right; rewrite C; auto).
    apply (set_link s _ RMode _ _ G Ir); [discriminate|exact N|]. intros q. apply (found _ RMode s _ G Ir (modes_names_iff root W R) N).
  - apply sound_flat. intros (q, k) Hs. apply (attributes_iff root W R) in Hs as (G & C). apply attribute_sound; assumption.
  - apply sound_flat. intros s Hs. apply slot_spot in Hs as (G & C). apply (sound_if s _ RFilter _ G); [rewrite C; left; reflexivity|discriminate|]. apply slot_find; assumption.
Qed.
Lemma in_modes m e : In m (modes root) -> In e (mode_ev root hash n m) -> In e (all_ev root hash n).
Proof. intros I H. unfold all_ev. rewrite !in_app_iff. right. left. apply in_flat_map. exists m. auto. Qed.
Lemma in_channel m s e : In m (modes root) -> In s (channel_spots m) -> In e (channel_ev root hash n s) -> In e (all_ev root hash n).
Proof. intros I H He. apply (in_modes m e I). unfold mode_ev. rewrite !in_app_iff. right. left. apply in_flat_map. exists s. auto. Qed.
Lemma in_logical m c s e : In m (modes root) -> In c (channel_spots m) -> In s (those CDmxLogicalChannel c) -> In e (logical_ev root hash n s) -> In e (all_ev root hash n).
Proof. intros I Hc H He. apply (in_channel m c e I Hc). unfold channel_ev. rewrite !in_app_iff. right. left. apply in_flat_map. exists s. auto. Qed.
Lemma in_function m c l s e : In m (modes root) -> In c (channel_spots m) -> In l (those CDmxLogicalChannel c) -> In s (those CDmxChannelFunction l) -> In e (function_ev root hash n s) -> In e (all_ev root hash n).
Proof. intros I Hc Hl H He. apply (in_logical m c l e I Hc Hl). right. apply in_flat_map. exists s. auto. Qed.
Lemma complete_at s m q k : good s -> In (m, k) (refs (class (snd s))) -> refers root (fst s) m q -> In (Link (fst s) m (To q)) (all_ev root hash n).
Proof.
  intros G Ir Rf.
  assert (D : In (class (snd s)) geometry_classes \/ ~ In (class (snd s)) geometry_classes) by (destruct (in_dec cls_dec (class (snd s)) geometry_classes); auto). destruct D as [D|D].
  { unfold all_ev. rewrite all_geo_links_flat. apply in_app_iff. left. apply in_flat_map. exists s. assert (I : In s (all_geos root)) by (destruct s as (q', k'); apply (all_geos_iff root W R); auto).
    split; [exact I|]. apply geo_complete; assumption. }
  destruct (class (snd s)) eqn:C; cbn [refs In] in Ir; try (destruct Ir; fail); try (destruct D; unfold geometry_classes; cbn; tauto).
  - (* CAttribute *) unfold all_ev. rewrite !in_app_iff. do 4 right. left. apply in_flat_map. exists s. split; [destruct s; apply (attributes_iff root W R); auto|]. apply attribute_complete; assumption.
  - (* CWheelSlot *) unfold all_ev. rewrite !in_app_iff. do 5 right. apply in_flat_map. exists s. split; [apply slot_spot; auto|]. destruct Ir as [Ir|[]]; injection Ir as <- <-.
    apply (in_if s _ RFilter _ q G); [rewrite C; left; reflexivity|discriminate|apply slot_find; assumption|exact Rf].
  - (* CPinPatch *) assert (N : class (snd s) <> CFixture) by (rewrite C; discriminate). destruct (above root (fst s) (snd s) W R G N) as (p' & i & g & E & Ag & Ng & I & _). rewrite C in I.
    assert (P : parents CPinPatch = [CGeometryWiringObject]) by (vm_compute; reflexivity). rewrite P in I. destruct I as [I|[]]. symmetry in I.
    assert (Is : In s (those CPinPatch (p', g))) by (destruct s as (q', k'); apply those_iff; exists i; auto).
    unfold all_ev. rewrite all_geo_links_flat. apply in_app_iff. left. apply in_flat_map. exists (p', g). split; [apply (all_geos_iff root W R); split; [exact Ag|rewrite I; cbn; tauto]|].
    unfold geo_own. apply in_app_iff. right. unfold class_of. rewrite kind_class. cbn [snd]. rewrite I. apply in_flat_map. exists s. split; [exact Is|]. destruct Ir as [Ir|[]]; injection Ir as <- <-.
    assert (Ir : In ("fToWiringObject"%string, RGeometry) (refs (class (snd s)))) by (rewrite C; left; reflexivity). apply (in_if s _ RGeometry _ q G Ir); [discriminate| |exact Rf]. apply (find_geo_found s _ G Ir).
  - (* CDmxMode *) destruct s as (q', k'). assert (I : In (q', k') (modes root)) by (apply (modes_iff root W R); auto). apply (in_modes _ _ I). unfold mode_ev. apply in_app_iff. left. destruct Ir as [Ir|[]]; injection Ir as <- <-.
    unfold mode_geometry. rewrite nlen_if. apply in_set. apply (mode_geometry_iff (q', k') q G C), Rf.
  - (* CDmxChannel *) destruct (in_a_mode s [CDMXChannels; CDmxChannel] _ G C eq_refl) as (m0 & I & H). apply (in_channel m0 s _ I H). apply channel_own_complete; assumption.
  - (* CDmxLogicalChannel *) destruct (in_a_mode s ([CDMXChannels; CDmxChannel] ++ [CDmxLogicalChannel]) _ G C eq_refl) as (m0 & I & H). rewrite down_app in H. apply in_flat_map in H as (c & Hc & H). apply down1 in H.
    apply (in_logical m0 c s _ I Hc H). destruct Ir as [Ir|[]]; injection Ir as <- <-. destruct (attribute_event_iff s _ G C (or_introl eq_refl)) as (_ & X). destruct (X q Rf) as [E|[]]. left. exact E.
  - (* CDmxChannelFunction *) destruct (in_a_mode s ([CDMXChannels; CDmxChannel] ++ [CDmxLogicalChannel; CDmxChannelFunction]) _ G C eq_refl) as (m0 & I & H). rewrite down_app in H. apply in_flat_map in H as (c & Hc & H).
    assert (Dm : m = "fModeMaster"%string \/ m <> "fModeMaster"%string) by (destruct (string_dec m "fModeMaster"); auto). destruct Dm as [->|Dm].
    + unfold all_ev. rewrite !in_app_iff. do 2 right. left. apply in_flat_map. exists m0. split; [exact I|]. apply in_flat_map. exists c. split; [exact Hc|]. apply in_flat_map. exists s. split; [exact H|]. apply (master_complete m0 c s q I Hc H Rf).
    + apply down_cons in H as (l & Hl & H). apply down1 in H. apply (in_function m0 c l s _ I Hc Hl H). apply function_complete; assumption.
  - (* CDmxSubChannelSet *) destruct (in_a_mode s ([CDMXChannels; CDmxChannel] ++ [CDmxLogicalChannel; CDmxChannelFunction; CDmxSubChannelSet]) _ G C eq_refl) as (m0 & I & H). rewrite down_app in H. apply in_flat_map in H as (c & Hc & H).
    apply down_cons in H as (l & Hl & H). apply down_cons in H as (f & Hf & H). apply down1 in H. apply (in_function m0 c l f _ I Hc Hl Hf).
    destruct (mode_spot m0 I) as (Gm & _). pose proof (down_good root _ m0 c Gm Hc) as Gc. destruct (those_good root _ c l Gc Hl) as (Gl & _). destruct (those_good root _ l f Gl Hf) as (Gf & _).
    apply function_sub_complete; assumption.
  - (* CDmxRelation *) destruct (in_a_mode s [CRelations; CDmxRelation] _ G C eq_refl) as (m0 & I & H). apply (in_modes m0 _ I). unfold mode_ev. rewrite !in_app_iff. do 2 right. left. apply in_flat_map. exists s. split; [exact H|].
    destruct Ir as [Ir|[Ir|[]]]; injection Ir as <- <-.
    + apply (by_channel m0 s _ _ q I H G) in Rf; [|rewrite C; left; reflexivity]. left. rewrite Rf. reflexivity.
    + apply (by_function m0 s _ _ q I H G) in Rf; [|rewrite C; right; left; reflexivity]. right. left. rewrite Rf. reflexivity.
  - (* CMacro *) destruct (in_a_mode s [CFTMacros; CMacro] _ G C eq_refl) as (m0 & I & H). apply (in_modes m0 _ I). unfold mode_ev. rewrite !in_app_iff. do 3 right. apply in_flat_map. exists s. split; [exact H|].
    unfold macro_ev. apply in_app_iff. left. destruct Ir as [Ir|[]]; injection Ir as <- <-. assert (Ir : In ("fChannelFunction"%string, RFunction) (refs (class (snd s)))) by (rewrite C; left; reflexivity).
    apply (in_if s _ RFunction _ q G Ir); [discriminate| |exact Rf]. intros N q'. rewrite (by_function m0 s _ _ q' I H G Ir). rewrite (refers_iff s _ RFunction q' G Ir) by discriminate. tauto.
  - (* CMacroDMXValue *) destruct (in_a_mode s ([CFTMacros; CMacro] ++ [CMacroDMX; CMacroDMXStep; CMacroDMXValue]) _ G C eq_refl) as (m0 & I & H). pose proof H as H0. rewrite down_app in H. apply in_flat_map in H as (x & Hx & H).
    apply (in_modes m0 _ I). unfold mode_ev. rewrite !in_app_iff. do 3 right. apply in_flat_map. exists x. split; [exact Hx|]. unfold macro_ev. rewrite !in_app_iff. right. left. apply in_flat_map. exists s. split; [exact H|].
    destruct Ir as [Ir|[]]; injection Ir as <- <-. apply (by_channel m0 s _ _ q I H0 G) in Rf; [|rewrite C; left; reflexivity]. apply in_set, Rf.
  - (* CMacroVisualValue *) destruct (in_a_mode s ([CFTMacros; CMacro] ++ [CMacroVisual; CMacroVisualStep; CMacroVisualValue]) _ G C eq_refl) as (m0 & I & H). pose proof H as H0. rewrite down_app in H. apply in_flat_map in H as (x & Hx & H).
    apply (in_modes m0 _ I). unfold mode_ev. rewrite !in_app_iff. do 3 right. apply in_flat_map. exists x. split; [exact Hx|]. unfold macro_ev. rewrite !in_app_iff. do 2 right. apply in_flat_map. exists s. split; [exact H|].
    destruct Ir as [Ir|[]]; injection Ir as <- <-. apply (by_function m0 s _ _ q I H0 G) in Rf; [|rewrite C; left; reflexivity]. unfold visual_value_ev. rewrite Rf. left. reflexivity.
  - (* CDMXPersonality *) unfold all_ev. rewrite !in_app_iff. do 3 right. left. apply in_flat_map. exists s. split; [apply personality_spot; auto|]. destruct Ir as [Ir|[]]; injection Ir as <- <-.
    apply in_set. apply (personality_iff s q G C), Rf.
Qed.
Lemma all_complete p m q : refers root p m q -> In (Link p m (To q)) (all_ev root hash n).
Proof. intros Rf. pose proof Rf as (o & k & A & Ir & _). exact (complete_at (p, o) m q k A Ir Rf). Qed.
End Fixture.
