(** A decision procedure for [linked], for the concrete fixtures. *)
From Coq Require Import String List NArith ZArith Bool Lia.
From Verif Require Import Bytes Txt StringModel StringProofs NumModel EnumModel ObjModel ObjSpec ObjTree ObjCheck ObjMore LookupModel LookupProps
  LinkModel LinkSpec LinkWhere LinkProofs LinkEvents LinkProps.
Import ListNotations.
Open Scope N_scope.

Fixpoint all_spots (p : place) (o : obj) : list spot :=
  match o with
  | Obj c vs ks => (p, Obj c vs ks) :: (fix go (i : nat) (l : list obj) : list spot :=
      match l with [] => [] | k :: r => all_spots (p ++ [i]) k ++ go (S i) r end) O ks
  end.
Lemma all_spots_in : forall q p o k, at_place o q = Some k -> In (p ++ q, k) (all_spots p o).
Proof.
  induction q as [|j q IH]; intros p o k A; cbn [at_place] in A.
  - injection A as <-. rewrite app_nil_r. destruct o. left. reflexivity.
  - destruct o as [c vs ks]. cbn [children] in A. right. destruct (nth_error ks j) as [x|] eqn:E; [|discriminate].
    assert (H : forall ks i, nth_error ks j = Some x -> In (p ++ (i + j)%nat :: q, k) ((fix go (i : nat) (l : list obj) : list spot :=
      match l with [] => [] | k :: r => all_spots (p ++ [i]) k ++ go (S i) r end) i ks)).
    { clear ks E. revert j A. intros j A. clear vs. revert j A. induction j as [|j IHj]; intros A ks i E; (destruct ks as [|y ks]; [discriminate E|]); cbn in E; apply in_app_iff.
      - injection E as ->. left. rewrite Nat.add_0_r. specialize (IH (p ++ [i]) x k A). rewrite <- app_assoc in IH. exact IH.
      - right. replace (i + S j)%nat with (S i + j)%nat by lia. apply IHj; assumption. }
    apply (H ks O E).
Qed.

Section Fixture.
Variable root : obj.
Hypothesis W : well_placed root.
Hypothesis R : class root = CFixture.
Definition in_modes_of (p : place) (f : spot -> list (list N * place)) : list (list N * place) :=
  flat_map (fun m => if list_eq_dec Nat.eq_dec (fst m) (firstn 2 p) then f m else []) (modes root).
Definition plain (l : list (list N * target)) : list (list N * place) := flat_map (fun x => match snd x with To q => [(fst x, q)] | _ => [] end) l.
Definition candidates (s : spot) (k : kind) : list (list N * place) :=
  match k with
  | RModel => models root
  | RGeometry => flat_map flatten (geos root)
  | RTopGeometry => map unique_name_at (geo_spots root)
  | REmitter => emitters root
  | RWheel => wheels root
  | RFilter => filters root
  | RColorSpace => spaces root
  | RGamut => gamuts root
  | RProfile => profiles root
  | RUnit => List.concat (units root)
  | RActivationGroup => groups root
  | RFeature => plain (List.concat (features root))
  | RAttribute => map name_at (attributes root)
  | RMode => map name_at (modes root)
  | RChannel => in_modes_of (fst s) (fun m => channel_names (mode_channels m))
  | RFunction => in_modes_of (fst s) (fun m => function_keys (mode_channels m))
  | RMaster => in_modes_of (fst s) (fun m => channel_names (mode_channels m)) ++ in_modes_of (fst s) (fun m => function_keys (mode_channels m))
  | RInitial => function_keys [pure_channel s]
  end.
Lemma channel_mode q t : channel_at root q t -> exists m, In m (modes root) /\ fst m = firstn 2 q.
Proof.
  intros (c & A & C & _). destruct (in_a_mode root W R (q, c) [CDMXChannels; CDmxChannel] CDmxChannel A C) as (m & I & H); [vm_compute; reflexivity|]. exists m. split; [exact I|].
  rewrite (in_mode root W R m (q, c) _ I H : firstn 2 q = _). destruct (mode_spot root W R m I) as (_ & _ & Lm). rewrite <- Lm. symmetry. apply firstn_all.
Qed.
Lemma function_mode q t : function_at root q t -> exists m, In m (modes root) /\ fst m = firstn 2 q.
Proof.
  intros (p & i & j & c & l & f & E & _ & _ & A & C & _). destruct (in_a_mode root W R (q, f) [CDMXChannels; CDmxChannel; CDmxLogicalChannel; CDmxChannelFunction] CDmxChannelFunction A C) as (m & I & H); [vm_compute; reflexivity|].
  exists m. split; [exact I|]. rewrite (in_mode root W R m (q, f) _ I H : firstn 2 q = _). destruct (mode_spot root W R m I) as (_ & _ & Lm). rewrite <- Lm. symmetry. apply firstn_all.
Qed.
Lemma mode_prefix m : In m (modes root) -> firstn 2 (fst m) = fst m.
Proof. intros I. destruct (mode_spot root W R m I) as (_ & _ & Lm). rewrite <- Lm. apply firstn_all. Qed.
Lemma scoped (f : spot -> list (list N * place)) (P : place -> list N -> Prop) p q t :
  (forall m, In m (modes root) -> (In (t, q) (f m) <-> P q t /\ same_mode (fst m) q)) -> (P q t -> exists m, In m (modes root) /\ fst m = firstn 2 q) ->
  (In (t, q) (in_modes_of p f) <-> P q t /\ same_mode p q).
Proof.
  intros Hf Hp. unfold in_modes_of. rewrite in_flat_map. split.
  - intros (m & I & H). match type of H with In _ (if ?x then _ else _) => destruct x as [E|] end; [|destruct H]. apply (Hf m I) in H as (H & Sm). split; [exact H|].
    unfold same_mode in *. exact (eq_trans (eq_sym E) (eq_trans (eq_sym (mode_prefix m I)) Sm)).
  - intros (H & Sm). destruct (Hp H) as (m & I & E). exists m. split; [exact I|]. unfold same_mode in Sm. match goal with |- In _ (if ?x then _ else _) => destruct x as [|D] end; [|destruct D; exact (eq_trans E (eq_sym Sm))].
    apply (Hf m I). split; [exact H|]. exact (eq_trans (mode_prefix m I) E).
Qed.
Lemma scoped_channels p q t : In (t, q) (in_modes_of p (fun m => channel_names (mode_channels m))) <-> channel_at root q t /\ same_mode p q.
Proof. apply scoped; [|apply channel_mode]. intros (p', m) I. apply (modes_iff root W R) in I as (A & C). apply (channel_names_iff root W R); assumption. Qed.
Lemma scoped_functions p q t : In (t, q) (in_modes_of p (fun m => function_keys (mode_channels m))) <-> function_at root q t /\ same_mode p q.
Proof. apply scoped; [|apply function_mode]. intros (p', m) I. apply (modes_iff root W R) in I as (A & C). apply (function_keys_iff root W R); assumption. Qed.
Lemma candidates_iff s m k q t : good_spot root s -> In (m, k) (refs (class (snd s))) -> (In (t, q) (candidates s k) <-> means root (fst s) k q t).
Proof.
  intros G I. destruct k; cbn [candidates].
  - apply (models_iff root W R). - apply (geos_iff root W R). - apply (top_geos_iff root W R). - apply (emitters_iff root W R). - apply (wheels_iff root W R).
  - apply (filters_iff root W R). - apply (spaces_iff root W R). - apply (gamuts_iff root W R). - apply (profiles_iff root W R). - apply (units_iff root W R). - apply (groups_iff root W R).
  - unfold plain. rewrite in_flat_map. split.
    + intros ((t', x) & Ix & H). destruct x; cbn in H; try contradiction. destruct H as [[= <- <-]|[]]. apply (features_iff root W R (fst s)) in Ix as (q' & [= <-] & M). exact M.
    + intros M. exists (t, To q). split; [apply (features_iff root W R (fst s)); exists q; auto|left; reflexivity].
  - cbn [means]. unfold name_at. rewrite in_map_iff. split.
    + intros ((q', o) & [= <- <-] & Io). apply (attributes_iff root W R) in Io as (A & C). rewrite text_field. exists o. auto.
    + intros (o & A & C & <-). exists (q, o). rewrite text_field. split; [reflexivity|]. apply (attributes_iff root W R). auto.
  - apply (modes_names_iff root W R).
  - apply scoped_channels.
  - apply scoped_functions.
  - rewrite in_app_iff, scoped_channels, scoped_functions. cbn [means]. tauto.
  - destruct s as (p, o). assert (C : class o = CDmxChannel).
    { cbn [snd] in I. clear -I. destruct (class o); cbn [refs In] in I; try reflexivity; try contradiction I;
      repeat match type of I with _ \/ _ => destruct I as [I|I] end; try contradiction I; discriminate I. }
    apply (channel_keys_iff root W p o q t G C).
Qed.
Definition neededb (c : cls) (f : string) : bool :=
  match c with
  | CDmxLogicalChannel | CDmxChannelFunction => String.eqb f "fAttribute"
  | CGeometryReference => String.eqb f "fLinkedGeometry"
  | CDMXPersonality => String.eqb f "fDMXMode"
  | _ => false
  end.
Definition refb (s : spot) (r : string * kind) : bool :=
  match text (fst r) s with
  | [] => negb (neededb (class (snd s)) (fst r))
  | t => match filter (fun x => txeq t (fst x)) (candidates s (snd r)) with [x] => if list_eq_dec N.eq_dec (fst x) t then true else false | _ => false end
  end.
Definition spotb (s : spot) : bool :=
  forallb (refb s) (refs (class (snd s))) &&
  match class (snd s) with CAttribute => match text "fMainAttribute" s, text "fFeature" s with _ :: _, [] => false | _, _ => true end | _ => true end.
Lemma linkedb_ok : forallb spotb (all_spots [] root) = true -> linked root.
Proof.
  intros H. rewrite forallb_forall in H.
  assert (Hs : forall p o, at_place root p = Some o -> spotb (p, o) = true) by (intros p o A; apply H; exact (all_spots_in p [] root o A)).
  split.
  - intros p o m k A I. specialize (Hs p o A). unfold spotb in Hs. apply andb_prop in Hs as (Hs & _). rewrite forallb_forall in Hs. specialize (Hs (m, k) I). unfold refb in Hs. rewrite text_field in Hs. cbn [fst snd] in Hs.
    pose proof (fun q t => candidates_iff (p, o) m k q t A I) as Ci. cbn [fst] in Ci. destruct (field m o) as [|x t] eqn:E.
    + split; [|intros N; contradiction]. intros Nd. exfalso. assert (Nb : neededb (class o) m = true) by (destruct Nd as [([C|C] & ->)|[(C & ->)|(C & ->)]]; rewrite C; reflexivity). rewrite Nb in Hs. discriminate Hs.
    + split; [discriminate|]. intros _. destruct (filter _ _) as [|(t0, q0) [|]] eqn:F; try discriminate Hs. cbn [fst] in Hs. destruct (list_eq_dec N.eq_dec t0 (x :: t)) as [->|]; [|discriminate Hs].
      exists q0. split.
      * apply Ci. assert (If : In (x :: t, q0) (filter (fun y => txeq (x :: t) (fst y)) (candidates (p, o) k))) by (rewrite F; left; reflexivity). apply filter_In in If. apply If.
      * intros q' t' M Sn. apply Ci in M. assert (If : In (t', q') (filter (fun y => txeq (x :: t) (fst y)) (candidates (p, o) k))) by (apply filter_In; split; [exact M|]; cbn [fst]; apply txeq_same_name; symmetry; exact Sn).
        rewrite F in If. destruct If as [[= _ ->]|[]]. reflexivity.
  - intros p o A C N. specialize (Hs p o A). unfold spotb in Hs. apply andb_prop in Hs as (_ & Hs). cbn [snd] in Hs. rewrite C, !text_field in Hs. cbn [snd] in Hs. destruct (field "fMainAttribute" o); [contradiction|]. destruct (field "fFeature" o); [discriminate Hs|discriminate].
Qed.
End Fixture.
