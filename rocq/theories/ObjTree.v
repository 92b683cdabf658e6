(** Whole objects: written and read again. *)
From Coq Require Import String List NArith ZArith Bool Lia.
From Coq Require Import ZifyN ZifyNat ZifyBool.
From Verif Require Import Bytes BytesProofs Txt UtfModel StringModel StringSpec NumModel ConvModel DmxModel DmxValProps
  XmlModel XmlSpec XmlProofs AttrModel AttrProps ObjModel ObjSpec ObjConv ObjAttrs.
Import ListNotations.
Open Scope N_scope.
Open Scope list_scope.
Ltac Zify.zify_post_hook ::= idtac.

Section ObjInd.
Variable P : obj -> Prop.
Hypothesis H : forall c vs ks, Forall P ks -> P (Obj c vs ks).
Fixpoint obj_induction (o : obj) : P o :=
  match o with
  | Obj c vs ks => H c vs ks ((fix go (l : list obj) : Forall P l :=
      match l with [] => Forall_nil P | k :: rest => Forall_cons k (obj_induction k) (go rest) end) ks)
  end.
End ObjInd.

(** ** Errors *)
Lemma same_lists c vs vs' : same_env vs vs' -> attribute_lists c vs' = attribute_lists c vs.
Proof.
  intros E. assert (K : forall g n, kind_is g n vs' = kind_is g n vs) by (intros; apply same_kind, E).
  assert (F : forall g, flag g vs' = flag g vs) by (intros; apply same_flagb, E).
  destruct c; try reflexivity; unfold attribute_lists; cbv zeta; rewrite ?K, ?F; reflexivity.
Qed.
Fixpoint apart_names (l : list (list N)) : bool :=
  match l with [] => true | a :: rest => negb (named a rest) && apart_names rest end.
Lemma lists_apart c vs : match attribute_lists c vs with Some (needed, _) => apart_names needed = true | None => True end.
Proof.
  destruct c; unfold attribute_lists; cbv zeta;
    repeat match goal with |- context [kind_is ?g ?n vs] => destruct (kind_is g n vs) | |- context [flag ?g vs] => destruct (flag g vs) end;
    try exact I; vm_compute; reflexivity.
Qed.
Lemma named_listed a l : named a l = true <-> listed a l.
Proof.
  unfold named, listed, same. rewrite existsb_exists. split; intros (b & I & E); exists b; (split; [exact I|]); now apply eqb_bytes_iff.
Qed.
Lemma apart_distinct l : apart_names l = true -> Distinct l.
Proof.
  induction l as [|a l IH]; intros H; [constructor|]. cbn [apart_names] in H. apply andb_prop in H as (H1 & H2). constructor; [|auto].
  intros L. apply named_listed in L. rewrite L in H1. discriminate.
Qed.
Lemma select_count (P : list N -> Prop) f b l r : (forall a, b a = true <-> P a) -> Select P f l r -> nlen r = nlen (filter b l).
Proof.
  intros Hb. induction 1 as [|a l r Ha S IH|a l r Ha S IH]; [reflexivity| |]; cbn [filter].
  - rewrite (proj2 (Hb a) Ha), !nlen_cons. now rewrite IH.
  - destruct (b a) eqn:E; [|exact IH]. exfalso. apply Ha, Hb, E.
Qed.
Lemma each_ascii l : Forall ascii l -> each_text l = Ok l.
Proof. induction 1 as [|b l Hb F IH]; [reflexivity|]. cbn [each_text]. rewrite (ascii_text b Hb), IH. reflexivity. Qed.
Lemma check_count hash buckets c ctx vs vs' os : attrs_ok c ctx vs -> Forall2 (writable (reso_of c ctx vs) vs) (writes c) os -> same_env vs vs' ->
  check hash buckets c vs' (pairs (writes c) os) = Ok (own_reports c vs).
Proof.
  intros A W E. unfold check, own_reports. rewrite (same_lists c vs vs' E). pose proof (lists_apart c vs) as D.
  destruct (attribute_lists c vs) as [(needed, optional)|]; [|reflexivity]. rewrite (pairs_present c ctx vs os A W). fold (written_names c vs).
  rewrite each_ascii.
  2:{ apply Forall_forall. intros a I. apply in_map_iff in I as (p & <- & Ip). apply filter_In in Ip as (Ip & _). now apply (writes_ascii c). }
  cbn [bind]. destruct (C55_reports_partial hash buckets (written_names c vs) needed optional (apart_distinct _ D)) as (e1 & e2 & -> & S1 & S2).
  f_equal. rewrite app_length, Nat2N.inj_add. f_equal.
  - apply (select_count _ _ _ _ _) with (2 := S1). intros a. rewrite <- named_listed. destruct (named a (written_names c vs)); cbn [negb]; intuition congruence.
  - apply (select_count _ _ _ _ _) with (2 := S2). intros a. rewrite <- !named_listed. unfold named. rewrite existsb_app.
    fold (named a needed) (named a optional). destruct (named a needed), (named a optional); cbn [orb negb]; intuition congruence.
Qed.

(** ** Slots *)
Definition kind_names (s : slot) : list cls := map snd (s_kinds s).
(** Every kind of the slot is found by the name of its node. *)
Fixpoint Each {A} (P : A -> Prop) (l : list A) : Prop := match l with [] => True | x :: rest => P x /\ Each P rest end.
Lemma Each_in {A} (P : A -> Prop) l x : Each P l -> In x l -> P x.
Proof. induction l as [|y l IH]; intros H I; [destruct I|]. destruct I as [-> |I]; [apply H|apply IH; [apply H|exact I]]. Qed.
Definition own_chk (s : slot) : Prop :=
  Each (fun k => kind_of (s_kinds s) (node_name k) = Some k) (kind_names s)
  /\ match s_mode s, s_kinds s with
     | All, _ => True
     | _, [(n, k)] => txt n = node_name k /\ s_post s = NoPost
     | _, _ => False
     end
  /\ match s_mode s with Ignored => Each (fun k => reports (fresh k) = 0) (kind_names s) | _ => True end
  /\ match s_post s with AddSets => kind_names s = [CDmxChannelSet] | _ => True end.
(** No kind of the second slot is found by the first one. *)
Definition not_in (s s' : slot) : Prop :=
  Each (fun k => kind_of (s_kinds s) (node_name k) = None /\ existsb (fun p => eqb_bytes (node_name k) (txt (fst p))) (s_kinds s) = false) (kind_names s').
Fixpoint sep (ss : list slot) : Prop :=
  match ss with [] => True | s :: rest => own_chk s /\ Each (fun s' => not_in s s' /\ not_in s' s) rest /\ sep rest end.
Lemma slots_sep c : sep (slots c).
Proof. destruct c; vm_compute; repeat split. Qed.
Lemma slots_quiet c : Each (fun s => Each (fun k => child_errs c (node_name k) = 0) (kind_names s)) (slots c).
Proof. destruct c; vm_compute; repeat split. Qed.
Lemma name_ascii c : ascii (node_name c).
Proof.
  assert (plain_name (node_name c) = true) by (destruct c; vm_compute; reflexivity). unfold plain_name in H. rewrite forallb_forall in H.
  apply Forall_forall. intros x Hx. specialize (H x Hx). lia.
Qed.

(** ** The children of an object *)
Definition same_dmx v v' : same_val v v' -> as_dmx v' = as_dmx v.
Proof. intros [-> |K]; [reflexivity|]. destruct v, v'; try contradiction; reflexivity. Qed.
Lemma same_obj_refl o : same_obj o o.
Proof.
  induction o as [c vs ks IH] using obj_induction. constructor; [intros g; apply same_refl|].
  induction IH; constructor; assumption.
Qed.
(** [o] was written to [n] and read as [o']. *)
Record kid := mkKid { k_obj : obj; k_node : node; k_back : obj }.
Record back (hash : list N -> N) (buckets : N) (d : nat) (own : offsets) (k : kid) : Prop := mkBack {
  bk_name : exists a ns, k_node k = Elem (node_name (class (k_obj k))) a ns;
  bk_write : write_obj own (k_obj k) = Ok (k_node k);
  bk_read : read_obj hash buckets d own (class (k_obj k)) (k_node k) = Ok (k_back k, reports (k_obj k));
  bk_same : same_obj (k_obj k) (k_back k);
  bk_again : write_obj own (k_back k) = Ok (k_node k) }.
Definition elem_of (k : kid) : list N * node := (node_name (class (k_obj k)), k_node k).
Definition total (l : list kid) : N := fold_right (fun k n => reports (k_obj k) + n) 0 l.
Lemma total_app a b : total (a ++ b) = total a + total b.
Proof. induction a as [|k a IH]; [reflexivity|]. cbn [total app fold_right]. fold (total a) (total (a ++ b)). rewrite IH. lia. Qed.

Section Kids.
Variable hash : list N -> N.
Variable buckets : N.
Variable d : nat.
Variable own : offsets.
Let rd := read_obj hash buckets d own.
Let bk := back hash buckets d own.

Lemma elements_of l : Forall bk l -> elements (map k_node l) = Ok (map elem_of l).
Proof.
  induction 1 as [|k l B F IH]; [reflexivity|]. cbn [map]. destruct (bk_name _ _ _ _ _ B) as (a & ns & E). unfold elem_of at 1. rewrite E.
  cbn [elements]. rewrite (ascii_text _ (name_ascii _)), IH. reflexivity.
Qed.
Lemma read_all_skip kinds a b : Forall (fun k => kind_of kinds (node_name (class (k_obj k))) = None) a ->
  read_all rd kinds (map elem_of a ++ b) = read_all rd kinds b.
Proof. induction 1 as [|k a H F IH]; [reflexivity|]. cbn [map app read_all elem_of]. unfold elem_of. now rewrite H. Qed.
Lemma read_all_own kinds b rest : forall l, Forall bk l -> Forall (fun k => kind_of kinds (node_name (class (k_obj k))) = Some (class (k_obj k))) l ->
  read_all rd kinds b = Ok rest ->
  read_all rd kinds (map elem_of l ++ b) = Ok (map k_back l ++ fst rest, total l + snd rest).
Proof.
  intros l B K R. induction B as [|k l B F IH].
  - cbn [map app total fold_right]. rewrite R. destruct rest. cbn [fst snd]. now rewrite N.add_0_l.
  - inversion K as [|? ? K1 K2]; subst. cbn [map app read_all]. unfold elem_of at 1. cbv iota beta. rewrite K1.
    unfold rd at 1. rewrite (bk_read _ _ _ _ _ B). cbn [bind]. rewrite (IH K2). cbn [bind fst snd total fold_right app]. fold (total l).
    now rewrite N.add_assoc.
Qed.
Lemma child_skip name a b : Forall (fun k => eqb_bytes (node_name (class (k_obj k))) name = false) a -> Forall bk a ->
  child_named name (map k_node a ++ b) = child_named name b.
Proof.
  intros H B. induction B as [|k a Bk F IH]; [reflexivity|]. inversion H as [|? ? H1 H2]; subst. cbn [map app].
  destruct (bk_name _ _ _ _ _ Bk) as (x & ns & E). rewrite E. cbn [child_named]. rewrite H1. exact (IH H2).
Qed.

(** The channel sets of a channel function. *)
Definition key (s : cset) : list N * N := (cs_name s, cs_start s).
Fixpoint numbered (i : N) (l : list obj) : list (list N * N) :=
  match l with [] => [] | o :: rest => ([i], set_start o) :: numbered (i + 1) rest end.
Lemma link_ok s : forall sets, Forall (fun x => cs_start x < cs_start s) sets ->
  exists l, link sets s = Some l /\ map key l = map key sets ++ [key s] /\ List.length l = S (List.length sets).
Proof.
  induction sets as [|a sets IH]; intros F; [exists [s]; auto|]. inversion F as [|? ? F1 F2]; subst. destruct sets as [|b sets].
  - cbn [link]. replace (cs_start s <=? cs_start a) with false by lia. eexists. split; [reflexivity|]. split; reflexivity.
  - destruct (IH F2) as (l & E & K & L). change (link (a :: b :: sets) s) with (match link (b :: sets) s with Some l => Some (a :: l) | None => None end).
    rewrite E. eexists. split; [reflexivity|]. cbn [map app List.length]. rewrite K, L. split; reflexivity.
Qed.
Lemma keys_below sets l b : map key l = map key sets ++ [b] -> forall m, Forall (fun x => cs_start x < m) sets -> snd b < m -> Forall (fun x => cs_start x < m) l.
Proof.
  intros E m F L. apply Forall_forall. intros x I. apply (in_map key) in I. rewrite E in I. apply in_app_or in I as [I|[-> |[]]].
  - apply in_map_iff in I as (y & Ey & Iy). rewrite Forall_forall in F. specialize (F y Iy). unfold key in Ey. injection Ey as _ Ey. lia.
  - exact L.
Qed.
Definition from (b : N) (l : list N) : Prop := match l with [] => True | a :: _ => b <= a end.
Lemma add_sets_ok virtual max : forall l i sets b, Forall (fun o => set_valid o = true) l -> increasing (map set_start l) ->
  (virtual = true -> Forall (fun o => set_start o < max) l) -> from b (map set_start l) ->
  Forall (fun x => cs_start x < b) sets -> N.of_nat (List.length sets) <= b ->
  exists sets', add_sets virtual max i sets l = Ok (sets', 0) /\ map key sets' = map key sets ++ numbered i l.
Proof.
  induction l as [|o l IH]; intros i sets b V Inc M Fr Be Le.
  { exists sets. split; [reflexivity|]. now rewrite app_nil_r. }
  inversion V as [|? ? V1 V2]; subst. cbn [map from] in Fr.
  set (s := mkSet [i] (set_start o) no_end false).
  destruct (link_ok s sets) as (l' & E & K & L). { eapply Forall_impl; [|exact Be]. cbv beta. cbn [s cs_start]. lia. }
  assert (A : add_set virtual max sets s = Ok (l', 0)).
  { unfold add_set. destruct virtual; [|now rewrite E]. specialize (M eq_refl). inversion M as [|? ? M1 M2]; subst.
    replace (max <=? N.of_nat (List.length sets)) with false by lia.
    assert (NF : next_free (N.to_nat (max - cs_start s)) sets max (cs_start s) = Ok (false, cs_start s)).
    { assert (X : existsb (fun x => cs_start x =? cs_start s) sets = false).
      { destruct (existsb (fun x => cs_start x =? cs_start s) sets) eqn:X; [|reflexivity]. apply existsb_exists in X as (x & Ix & Ex).
        rewrite Forall_forall in Be. specialize (Be x Ix). cbn [s cs_start] in Ex. lia. }
      destruct (N.to_nat (max - cs_start s)); cbn [next_free]; rewrite X; replace (cs_start s <? max) with true by (cbn [s cs_start]; lia); reflexivity. }
    rewrite NF. cbn [bind]. change (with_start s (cs_start s)) with s. now rewrite E. }
  destruct (IH (i + 1) l' (set_start o + 1)) as (sets' & E2 & K2).
  - exact V2.
  - cbn [map] in Inc. destruct (map set_start l); [exact I|apply Inc].
  - intros X. specialize (M X). now inversion M.
  - cbn [map] in Inc. destruct (map set_start l); [exact I|]. destruct Inc as (X & _). cbn [from]. lia.
  - apply (keys_below sets l' (key s) K); [|cbn [key snd s cs_start]; lia]. eapply Forall_impl; [|exact Be]. cbv beta. lia.
  - rewrite L. lia.
  - exists sets'. split.
    + cbn [add_sets]. rewrite V1. fold s. rewrite A. cbn [bind fst snd]. rewrite E2. reflexivity.
    + rewrite K2, K, <- app_assoc. reflexivity.
Qed.
Lemma put_same g v vs : get g vs = v -> v <> VUnset -> put g v vs = vs.
Proof.
  intros <- N0. induction vs as [|(k, x) vs IH]; [contradiction (N0 eq_refl)|]. cbn [get put] in *. destruct (String.eqb g k) eqn:E; [reflexivity|].
  now rewrite IH.
Qed.
Definition set_fine (o : obj) : Prop := set_valid o = true /\ exists v, get "fDmxStart" (members o) = VDmx false v.
Lemma renumber all : forall l pre, all = pre ++ l -> Forall set_fine l ->
  map (fun x => put_val "fDmxStart" (VDmx false (snd x)) (nth (N.to_nat (hd 0 (fst x))) all (fresh CDmxChannelSet))) (numbered (nlen pre) l) = l.
Proof.
  induction l as [|o l IH]; intros pre E F; [reflexivity|]. inversion F as [|? ? F1 F2]; subst. cbn [numbered map fst snd hd]. f_equal.
  - unfold nlen. rewrite Nat2N.id, app_nth2, Nat.sub_diag by lia. cbn [nth]. destruct F1 as (_ & v & Ev). destruct o as [c vs ks].
    cbn [put_val set_start members] in *. rewrite Ev. cbn [as_dmx]. rewrite put_same; [reflexivity|exact Ev|discriminate].
  - rewrite <- (IH (pre ++ [o])) at 2; [|now rewrite <- app_assoc|exact F2]. rewrite nlen_app. reflexivity.
Qed.
Lemma keep_sets_id l : Forall set_fine l -> increasing (map set_start l) ->
  (is_virtual own = true -> Forall (fun o => set_start o < channel_max own) l) -> keep_sets own l = Ok (l, 0).
Proof.
  intros F Inc M. unfold keep_sets. destruct (add_sets_ok (is_virtual own) (channel_max own) l 0 [] 0) as (sets' & E & K); auto.
  - eapply Forall_impl; [|exact F]. now intros o (V & _).
  - destruct (map set_start l); [exact I|]. cbn [from]. lia.
  - cbn [List.length]. lia.
  - rewrite E. cbn [bind fst snd]. do 2 f_equal.
    cbn [map app] in K. pose proof (renumber l l [] eq_refl F) as R. change (nlen []) with 0 in R. rewrite <- K, map_map in R. exact R.
Qed.
(** A channel set that was read. *)
Lemma set_back o o' : obj_ok own o -> class o = CDmxChannelSet -> same_obj o o' -> set_fine o' /\ set_start o' = dmx_start "fDmxStart" o.
Proof.
  intros O C S. destruct S as [c vs vs' ks ks' E _]. cbn [class] in C. subst c. inversion O as [ctx c vs0 ks0 A _ _]; subst.
  destruct A as (A1 & A2 & _).
  assert (V : get "fValid" vs = VFlag true).
  { apply (A2 (w "DMXFrom" "fDmxStart" KDmx) (ri "DMXFrom" "fDmxStart" KDmx (OkTo "fValid"))); [cbn; auto|cbn; auto|reflexivity|now left]. }
  specialize (A1 (w "DMXFrom" "fDmxStart" KDmx) ltac:(cbn; auto)). cbn [shown w w_when w_conv w_field] in A1. destruct A1 as (A1 & _).
  destruct (get "fDmxStart" vs) as [| | | | | | | | | | | |none v|] eqn:G; try contradiction. destruct A1 as (-> & _).
  pose proof (E "fDmxStart"%string) as S. rewrite G in S. destruct S as [S|[]].
  pose proof (E "fValid"%string) as S2. rewrite V in S2. destruct S2 as [S2|[]].
  split; [split|].
  - cbn [set_valid]. unfold flag. now rewrite <- S2.
  - exists v. cbn [members]. now symmetry.
  - cbn [set_start]. unfold dmx_start. cbn [members]. now rewrite <- S, G.
Qed.

Definition rewritten (l : list kid) (l' : list obj) : Prop :=
  Forall2 (fun k o' => same_obj (k_obj k) o' /\ write_obj own o' = Ok (k_node k)) l l'.
Lemma rewritten_back l : Forall bk l -> rewritten l (map k_back l).
Proof.
  induction 1 as [|k l B F IH]; constructor; [|exact IH]. split; [exact (bk_same _ _ _ _ _ B)|exact (bk_again _ _ _ _ _ B)].
Qed.
(** One slot, among the children of the others. *)
Lemma slot_back s a l b : own_chk s -> in_slot own s (map k_obj l) -> Forall (fun k => obj_ok own (k_obj k)) l ->
  Forall bk a -> Forall bk l -> Forall bk b ->
  Forall (fun k => kind_of (s_kinds s) (node_name (class (k_obj k))) = None
    /\ existsb (fun p => eqb_bytes (node_name (class (k_obj k))) (txt (fst p))) (s_kinds s) = false) (a ++ b) ->
  exists l', read_slot rd own s (map k_node (a ++ l ++ b)) (map elem_of (a ++ l ++ b)) = Ok (l', total l) /\ rewritten l l'.
Proof.
  intros (C1 & C2 & C3 & C4) (K & Md & Po) Oks Ba Bl Bb Ap. apply Forall_app in Ap as (Apa & Apb).
  assert (Kl : Forall (fun k => kind_of (s_kinds s) (node_name (class (k_obj k))) = Some (class (k_obj k))) l).
  { apply Forall_forall. intros k Ik. apply (Each_in _ _ _ C1). rewrite Forall_forall in K. apply K. now apply in_map. }
  assert (RA : read_all rd (s_kinds s) (map elem_of (a ++ l ++ b)) = Ok (map k_back l, total l)).
  { rewrite map_app. rewrite read_all_skip by (eapply Forall_impl; [|exact Apa]; cbv beta; tauto). rewrite map_app.
    rewrite (read_all_own _ (map elem_of b) ([], 0)); [cbn [fst snd]; now rewrite app_nil_r, N.add_0_r|exact Bl|exact Kl|].
    rewrite <- (app_nil_r (map elem_of b)). rewrite read_all_skip by (eapply Forall_impl; [|exact Apb]; cbv beta; tauto). reflexivity. }
  assert (ONE : forall n k, s_kinds s = [(n, k)] -> txt n = node_name k -> (List.length l <= 1)%nat ->
    match l with
    | [] => child_named (txt n) (map k_node (a ++ l ++ b)) = None
    | x :: _ => l = [x] /\ class (k_obj x) = k /\ child_named (txt n) (map k_node (a ++ l ++ b)) = Some (k_node x)
    end).
  { intros n k Ek En Len. assert (SK : forall z, Forall (fun k => kind_of (s_kinds s) (node_name (class (k_obj k))) = None
        /\ existsb (fun p => eqb_bytes (node_name (class (k_obj k))) (txt (fst p))) (s_kinds s) = false) z ->
      Forall (fun k => eqb_bytes (node_name (class (k_obj k))) (txt n) = false) z).
    { intros z Hz. eapply Forall_impl; [|exact Hz]. cbv beta. rewrite Ek. cbn [existsb fst]. intros y (_ & H). destruct (eqb_bytes _ (txt n)); [discriminate|reflexivity]. }
    rewrite !map_app, child_skip; [|apply SK, Apa|exact Ba]. destruct l as [|x [|y l]]; [| |cbn [List.length] in Len; lia].
    - cbn [map app]. rewrite <- (app_nil_r (map k_node b)), child_skip; [reflexivity|apply SK, Apb|exact Bb].
    - split; [reflexivity|]. assert (Ec : class (k_obj x) = k).
      { inversion K as [|? ? K1 _]; subst. rewrite Ek in K1. destruct K1 as [<- |[]]. reflexivity. }
      split; [exact Ec|]. inversion Bl as [|? ? B1 _]; subst. destruct (bk_name _ _ _ _ _ B1) as (at_ & ns & E). cbn [map app]. rewrite E.
      cbn [child_named]. rewrite En, eqb_bytes_refl. reflexivity. }
  unfold read_slot. destruct (s_mode s).
  - rewrite RA. cbn [bind fst snd]. exists (map k_back l). split; [|now apply rewritten_back]. destruct (s_post s); cbn [after_reading post_ok] in *.
    + cbn [bind fst snd]. now rewrite N.add_0_r.
    + assert (first_at_zero (map k_back l) = (map k_back l, 0)) as ->; [|cbn [bind fst snd]; now rewrite N.add_0_r].
      destruct l as [|x l]; [reflexivity|]. cbn [map first_at_zero] in *. inversion Bl as [|? ? B1 _]; subst.
      assert (start_of (k_back x) = 0) as ->; [|reflexivity]. pose proof (bk_same _ _ _ _ _ B1) as S. rewrite <- Po.
      destruct S as [c vs vs' ks ks' E _]. unfold dmx_start. cbn [start_of members]. apply same_dmx, E.
    + destruct Po as (Inc & Vi).
      assert (SF : Forall set_fine (map k_back l) /\ map set_start (map k_back l) = map (dmx_start "fDmxStart") (map k_obj l)).
      { clear RA ONE Inc Vi Kl. induction l as [|x l IH]; [split; [constructor|reflexivity]|].
        inversion K as [|? ? K1 K2]; subst. inversion Oks as [|? ? O1 O2]; subst. inversion Bl as [|? ? B1 B2]; subst.
        destruct (IH K2 O2 B2) as (I1 & I2). fold (kind_names s) in K1. rewrite C4 in K1. destruct K1 as [K1|[]].
        destruct (set_back (k_obj x) (k_back x) O1 (eq_sym K1) (bk_same _ _ _ _ _ B1)) as (S1 & S2).
        split; [constructor; assumption|]. cbn [map]. now rewrite S2, I2. }
      destruct SF as (SF & SE). rewrite (keep_sets_id (map k_back l) SF).
      * cbn [bind fst snd]. now rewrite N.add_0_r.
      * now rewrite SE.
      * intros V. specialize (Vi V). apply Forall_forall. intros o Io. apply (in_map set_start) in Io. rewrite SE in Io.
        apply in_map_iff in Io as (y & <- & Iy). rewrite Forall_forall in Vi. now apply Vi.
  - destruct (s_kinds s) as [|(n, k) [|]]; try contradiction. destruct C2 as (En & _). specialize (ONE n k eq_refl En).
    rewrite map_length in Md. specialize (ONE Md). cbn [read_one]. destruct l as [|x l].
    + rewrite ONE. exists []. split; [reflexivity|constructor].
    + destruct ONE as (El & Ec & Ef). injection El as ->. rewrite Ef. inversion Bl as [|? ? B1 _]; subst. unfold rd at 1. rewrite (bk_read _ _ _ _ _ B1).
      cbn [bind fst snd]. exists [k_back x]. split; [cbn [total fold_right]; now rewrite N.add_0_r|]. now apply (rewritten_back [x]).
  - destruct (s_kinds s) as [|(n, k) [|]]; try contradiction. destruct C2 as (En & _). specialize (ONE n k eq_refl En).
    rewrite map_length in Md. specialize (ONE ltac:(lia)). cbn [read_one]. destruct l as [|x l]; [discriminate Md|].
    destruct ONE as (El & Ec & Ef). injection El as ->. rewrite Ef. inversion Bl as [|? ? B1 _]; subst. unfold rd at 1. rewrite (bk_read _ _ _ _ _ B1).
    cbn [bind fst snd]. exists [k_back x]. split; [cbn [total fold_right]; now rewrite N.add_0_r|]. now apply (rewritten_back [x]).
  - exists (map k_obj l). rewrite <- Md. split.
    + do 2 f_equal. symmetry.
      assert (Forall (fun o => reports o = 0) (map k_obj l)).
      { rewrite Md. apply Forall_forall. intros o Io. apply in_map_iff in Io as (p & <- & Ip).
        apply (Each_in (fun k => reports (fresh k) = 0) _ _ C3). unfold kind_names. now apply in_map. }
      clear -H. induction l as [|x l IH]; [reflexivity|]. cbn [map total fold_right] in *. fold (total l). inversion H; subst. rewrite IH by assumption. lia.
    + clear -Bl. induction Bl as [|x l B F IH]; constructor; [|exact IH]. split; [apply same_obj_refl|exact (bk_write _ _ _ _ _ B)].
Qed.
(** All slots. *)
Lemma rewritten_app l l' m m' : rewritten l l' -> rewritten m m' -> rewritten (l ++ m) (l' ++ m').
Proof. apply Forall2_app. Qed.
Lemma slots_back : forall ss a l, sep ss -> fits own ss (map k_obj l) -> Forall (fun k => obj_ok own (k_obj k)) l -> Forall bk a -> Forall bk l ->
  Forall (fun k => Forall (fun s => kind_of (s_kinds s) (node_name (class (k_obj k))) = None
    /\ existsb (fun p => eqb_bytes (node_name (class (k_obj k))) (txt (fst p))) (s_kinds s) = false) ss) a ->
  exists l', read_slots rd own ss (map k_node (a ++ l)) (map elem_of (a ++ l)) = Ok (l', total l) /\ rewritten l l'.
Proof.
  induction ss as [|s ss IH]; intros a l Sp F O Ba Bl Ap.
  - inversion F as [E|]. destruct l; [|discriminate]. exists []. split; [reflexivity|constructor].
  - inversion F as [|s' ss' l1 l2 In1 F2 E0 E]. subst s' ss'. symmetry in E. apply map_eq_app in E as (k1 & k2 & -> & E1 & E2). subst l1 l2.
    destruct Sp as (C & Dj & Sp). apply Forall_app in Bl as (B1 & B2). apply Forall_app in O as (O1 & O2).
    assert (K2 : forall k, In k k2 -> exists s', In s' ss /\ In (class (k_obj k)) (kind_names s')).
    { clear -F2. intros k Ik. apply (in_map k_obj) in Ik. revert Ik. generalize (map k_obj k2), F2. clear. intros os F. induction F as [|s ss l ks I1 F IH]; intros Ik; [destruct Ik|].
      apply in_app_or in Ik as [Ik|Ik].
      - exists s. split; [now left|]. destruct I1 as (I1 & _). rewrite Forall_forall in I1. exact (I1 _ Ik).
      - destruct (IH Ik) as (s' & I' & I2). exists s'. split; [now right|exact I2]. }
    destruct (slot_back s a k1 k2 C In1 O1 Ba B1 B2) as (l1' & R1 & W1).
    { apply Forall_app. split.
      - eapply Forall_impl; [|exact Ap]. cbv beta. intros k Hk. now inversion Hk.
      - apply Forall_forall. intros k Ik. destruct (K2 k Ik) as (s' & Is & Ic). destruct (Each_in _ _ _ Dj Is) as (N1 & _).
        exact (Each_in _ _ _ N1 Ic). }
    destruct (IH (a ++ k1) k2 Sp F2 O2) as (l2' & R2 & W2).
    + apply Forall_app. now split.
    + exact B2.
    + apply Forall_app. split.
      * eapply Forall_impl; [|exact Ap]. cbv beta. intros k Hk. now inversion Hk.
      * apply Forall_forall. intros k Ik. apply Forall_forall. intros s' Is. destruct (Each_in _ _ _ Dj Is) as (_ & N1).
        destruct In1 as (In1 & _). rewrite Forall_forall in In1. specialize (In1 _ (in_map k_obj _ _ Ik)). exact (Each_in _ _ _ N1 In1).
    + exists (l1' ++ l2'). cbn [read_slots]. rewrite <- app_assoc in R2. rewrite R1. cbn [bind]. rewrite R2. cbn [bind fst snd].
      rewrite total_app. split; [reflexivity|]. now apply rewritten_app.
Qed.
Lemma quiet c l : fits own (slots c) (map k_obj l) -> sum (map (fun p => child_errs c (fst p)) (map elem_of l)) = 0.
Proof.
  intros F. assert (Q : forall k, In k l -> child_errs c (node_name (class (k_obj k))) = 0).
  { intros k Ik. pose proof (slots_quiet c) as H. apply (in_map k_obj) in Ik. revert H Ik. generalize (map k_obj l), F. clear. intros os F H Ik.
    induction F as [|s ss l ks I1 F IH]; [destruct Ik|]. destruct H as (H1 & H2). apply in_app_or in Ik as [Ik|Ik]; [|exact (IH H2 Ik)].
    destruct I1 as (I1 & _). rewrite Forall_forall in I1. exact (Each_in _ _ _ H1 (I1 _ Ik)). }
  clear F. induction l as [|k l IH]; [reflexivity|]. cbn [map sum fold_right]. fold (sum (map (fun p => child_errs c (fst p)) (map elem_of l))).
  rewrite IH by (intros x Ix; apply Q; now right). unfold elem_of. cbn [fst]. rewrite Q by now left. reflexivity.
Qed.
End Kids.

(** ** Trees *)
Definition write_kids (own : offsets) : list obj -> res (list node) :=
  fix go (l : list obj) : res (list node) :=
    match l with
    | [] => Ok []
    | k :: rest => do n <- write_obj own k; do ns <- go rest; Ok (n :: ns)
    end.
Lemma write_obj_eq ctx c vs ks : write_obj ctx (Obj c vs ks) =
  do attrs <- write_entries (reso_of c ctx vs) vs (writes c) [];
  do kids <- write_kids (own_offsets c ctx vs) ks; Ok (Elem (node_name c) attrs kids).
Proof. reflexivity. Qed.
Lemma write_kids_ok own : forall l ns, Forall2 (fun o n => write_obj own o = Ok n) l ns -> write_kids own l = Ok ns.
Proof. induction 1 as [|o n l ns W F IH]; [reflexivity|]. cbn [write_kids]. rewrite W. cbn [bind]. fold (write_kids own l). rewrite IH. reflexivity. Qed.
Lemma reports_eq c vs l : reports (Obj c vs (map k_obj l)) = own_reports c vs + total l.
Proof. cbn [reports]. f_equal. induction l as [|k l IH]; [reflexivity|]. cbn [map fold_right total]. now rewrite IH. Qed.
Lemma max_all (l : list node) d : (fold_right Nat.max O (map depth l) <= d)%nat -> Forall (fun n => (depth n <= d)%nat) l.
Proof. induction l as [|n l IH]; intros H; constructor; cbn [map fold_right] in H; [lia|apply IH; lia]. Qed.

Section Tree.
Variable hash : list N -> N.
Variable buckets : N.
Definition comes_back (o : obj) : Prop := forall ctx, obj_ok ctx o ->
  exists n, write_obj ctx o = Ok n /\ forall d, (depth n <= d)%nat -> exists o', back hash buckets d ctx (mkKid o n o').
Lemma tree_back o : comes_back o.
Proof.
  induction o as [c vs ks IH] using obj_induction. intros ctx O. inversion O as [ctx' c' vs' ks' A F Oks]; subst. set (own := own_offsets c ctx vs) in *.
  destruct (written c ctx vs A) as (os & W).
  assert (K : exists ns, Forall2 (fun o n => write_obj own o = Ok n /\ forall d, (depth n <= d)%nat -> exists o', back hash buckets d own (mkKid o n o')) ks ns).
  { clear F O. induction IH as [|k ks H IH' IHk]; [exists []; constructor|]. inversion Oks as [|? ? O1 O2]; subst.
    destruct (IHk O2) as (ns & Fn). destruct (H own O1) as (n & Wn & Rn). exists (n :: ns). constructor; [split; assumption|exact Fn]. }
  destruct K as (ns & K). pose proof (write_entries_ok (reso_of c ctx vs) vs (writes c) os [] (writes_nodup c) (fun _ _ H => H) W) as WE. cbn [app] in WE.
  assert (WO : write_obj ctx (Obj c vs ks) = Ok (Elem (node_name c) (pairs (writes c) os) ns)).
  { rewrite write_obj_eq, WE. cbn [bind]. fold own. rewrite (write_kids_ok own ks ns); [reflexivity|].
    clear -K. induction K as [|? ? ? ? (W & _)]; constructor; assumption. }
  exists (Elem (node_name c) (pairs (writes c) os) ns). split; [exact WO|].
  intros [|d] D; [cbn [depth] in D; lia|]. cbn [depth] in D. apply le_S_n in D. pose proof (max_all ns d D) as Dn.
  assert (L : exists l, map k_obj l = ks /\ map k_node l = ns /\ Forall (back hash buckets d own) l).
  { clear -K Dn. induction K as [|o n ks ns (_ & H) K IH]; [exists []; auto|]. inversion Dn as [|? ? D1 D2]; subst.
    destruct (IH D2) as (l & E1 & E2 & B). destruct (H d D1) as (o' & Bo). exists (mkKid o n o' :: l). cbn [map k_obj k_node]. rewrite E1, E2. auto. }
  destruct L as (l & <- & <- & B).
  destruct (read_back c ctx vs A os W) as (st & RE & SE & NZ).
  assert (Oks' : Forall (fun k => obj_ok own (k_obj k)) l).
  { apply Forall_forall. intros k Ik. rewrite Forall_forall in Oks. apply Oks. now apply in_map. }
  destruct (slots_back hash buckets d own (slots c) [] l (slots_sep c) F Oks' (Forall_nil _) B (Forall_nil _)) as (l' & RS & RW). cbn [app] in RS.
  exists (Obj c st l'). pose proof (same_own c ctx vs st SE) as OW.
  constructor; cbn [k_obj k_node k_back class].
  - eauto.
  - exact WO.
  - cbn [read_obj]. rewrite RE. cbn [bind fst snd]. rewrite OW. fold own. rewrite (elements_of hash buckets d own l B). cbn [bind]. rewrite RS. cbn [bind fst snd].
    rewrite (check_count hash buckets c ctx vs st os A W SE). cbn [bind]. rewrite (quiet own c l F), reports_eq. do 2 f_equal. lia.
  - constructor; [exact SE|]. clear -RW. induction RW as [|k o' l l' (S & _)]; constructor; assumption.
  - rewrite write_obj_eq. rewrite (write_entries_ok _ st (writes c) os [] (writes_nodup c) (fun _ _ H => H) (write_again c ctx vs os W st SE NZ)).
    cbn [bind app]. rewrite OW. fold own. rewrite (write_kids_ok own l' (map k_node l)); [reflexivity|].
    clear -RW. induction RW as [|k o' l l' (_ & S)]; constructor; assumption.
Qed.
End Tree.

(** ** Files *)
Definition name_chk (n : list N) : bool :=
  let l c := ((65 <=? c) && (c <=? 90)) || ((97 <=? c) && (c <=? 122)) || (c =? 58) || (c =? 95) in
  match n with [] => false | c :: r => l c && forallb (fun x => l x || ((48 <=? x) && (x <=? 57)) || (x =? 46) || (x =? 45)) r end.
Lemma name_chk_ok n : name_chk n = true -> xml_name n.
Proof.
  destruct n as [|c r]; [discriminate|]. cbn [name_chk]. intros H. apply andb_prop in H as (H1 & H2). exists c, r. split; [reflexivity|]. split; [unfold letter; lia|].
  rewrite forallb_forall in H2. apply Forall_forall. intros x Hx. specialize (H2 x Hx). unfold in_name, letter. lia.
Qed.
Lemma names_chk c : name_chk (node_name c) && forallb name_chk (map w_attr (writes c)) = true.
Proof. destruct c; vm_compute; reflexivity. Qed.
Lemma pairs_in es os a b : In (a, b) (pairs es os) -> exists p, In p es /\ w_attr p = a /\ In (p, Some b) (combine es os).
Proof.
  unfold pairs. intros I. apply in_flat_map in I as ((p, o) & I & J). destruct o as [x|]; [|destruct J]. destruct J as [[= <- <-]|[]].
  exists p. split; [now apply in_combine_l in I|]. now split.
Qed.
Lemma combine_writable reso vs es os p o : Forall2 (writable reso vs) es os -> In (p, o) (combine es os) -> writable reso vs p o.
Proof. induction 1 as [|p' o' es os W F IH]; intros I; [destruct I|]. destruct I as [[= <- <-]|I]; auto. Qed.
Lemma pairs_nodup os : forall es, NoDup (map w_attr es) -> NoDup (map fst (pairs es os)).
Proof.
  induction os as [|o os IH]; intros [|p es] N0; try (constructor; fail). inversion N0 as [|? ? N1 N2]; subst. unfold pairs. cbn [combine flat_map fst snd].
  fold (pairs es os). destruct o as [b|]; cbn [pair_of app map fst]; [|now apply IH]. constructor; [|now apply IH].
  intros I. apply N1. apply in_map_iff in I as ((a, b') & E & I). cbn [fst] in E. subst a. apply pairs_in in I as (q & Iq & E & _). rewrite <- E. now apply in_map.
Qed.
Lemma attr_no_cr c ctx vs os a b : attrs_ok c ctx vs -> (forall g s, get g vs = VTxt s -> ~ In 13 s) -> Forall2 (writable (reso_of c ctx vs) vs) (writes c) os ->
  In (a, b) (pairs (writes c) os) -> ~ In 13 b /\ ~ In 0 b.
Proof.
  intros A Q W I. apply pairs_in in I as (p & Ip & <- & Ic). pose proof (combine_writable _ _ _ _ _ _ W Ic) as Wp. cbn [writable] in Wp.
  destruct Wp as (t & Wt & Bt & _). pose proof (entry_fine c) as F. rewrite forallb_forall in F. specialize (F p Ip). apply andb_prop in F as (F & NZ).
  destruct (shown vs p) eqn:S.
  - destruct A as (A1 & A2 & A3). pose proof (A1 p Ip) as X. rewrite S in X. destruct X as (V & X).
    assert (Wc : write_conv (w_conv p) (reso_of c ctx vs) (get (w_field p) vs) = Ok t).
    { unfold write_entry in Wt. unfold shown in S. assert (T1 : (do s <- write_conv (w_conv p) (reso_of c ctx vs) (get (w_field p) vs); Ok (Some s)) = Ok (Some t)).
      { destruct (w_when p) as [|g|g|g n|g|g|]; try exact Wt.
        - destruct (no_text g vs); [discriminate|exact Wt].
        - destruct (flag g vs); [exact Wt|discriminate].
        - destruct (kind_is g n vs); [exact Wt|discriminate].
        - destruct (is_zero (get g vs)) eqn:Z; [discriminate|]. destruct (get g vs); try discriminate Wt; rewrite Z in Wt; exact Wt.
        - destruct (flag g vs); [exact Wt|discriminate].
        - destruct (no_text (w_field p) vs); [discriminate|exact Wt]. }
      destruct (write_conv (w_conv p) (reso_of c ctx vs) (get (w_field p) vs)) as [t'| | |]; try discriminate T1. cbn [bind] in T1. congruence. }
    destruct (conv_roundtrip (w_conv p) (reso_of c ctx vs) _ (fine_old (w_conv p)) (reso_1_4 c ctx vs) V ltac:(destruct (w_conv p); reflexivity) F) as (t2 & v' & ok & W2 & _ & _ & _ & G & _).
    rewrite Wc in W2. apply Ok_inj in W2. subst t2. apply (no_cr_bytes t b G Bt).
    pose proof (conv_ascii _ _ _ _ V F Wc) as C. destruct (get (w_field p) vs) eqn:Eg;
      try (intros H; unfold ascii in C; rewrite Forall_forall in C; specialize (C 13 H); lia). subst t. exact (Q _ _ Eg).
  - rewrite (hidden_entry c ctx vs p Ip S) in Wt. destruct (w_when p); try discriminate Wt. apply Ok_inj in Wt. injection Wt as <-.
    apply Ok_inj in Bt. subst b. split; intros [].
Qed.
Lemma apart_elems (l : list node) : Forall (fun n => exists a b c, n = Elem a b c) l -> XmlSpec.apart l.
Proof.
  induction 1 as [|n l (a & b & c & ->) F IH]; [exact I|]. destruct l as [|m l]; [exact I|]. split; [|exact IH].
  intros (v & E). discriminate E.
Qed.
Lemma nested_kids (ks : list obj) ns : Forall2 (fun o n => nested n (levels o)) ks ns ->
  nested_list ns (fold_right (fun k n => Nat.max (levels k) n) O ks).
Proof. induction 1; cbn [fold_right]; constructor; assumption. Qed.
Lemma tree_file o : forall ctx, obj_ok ctx o -> no_cr_obj o ->
  exists a ks, write_obj ctx o = Ok (Elem (node_name (class o)) a ks) /\ tree (Elem (node_name (class o)) a ks)
    /\ plain (Elem (node_name (class o)) a ks) /\ nested (Elem (node_name (class o)) a ks) (levels o).
Proof.
  induction o as [c vs ks IH] using obj_induction. intros ctx O Q. inversion O as [ctx' c' vs' ks' A F Oks]; subst. set (own := own_offsets c ctx vs) in *.
  inversion Q as [c' vs' ks' Q1 Q2]; subst. destruct (written c ctx vs A) as (os & W).
  assert (K : exists ns, Forall2 (fun o n => write_obj own o = Ok n) ks ns /\ Forall tree ns /\ Forall plain ns
    /\ Forall (fun n => exists a b c, n = Elem a b c) ns /\ Forall2 (fun o n => nested n (levels o)) ks ns).
  { clear F O Q. induction IH as [|k ks H IH' IHk]; [exists []; repeat split; constructor|]. inversion Oks as [|? ? O1 O2]; subst. inversion Q2 as [|? ? Q3 Q4]; subst.
    destruct (IHk O2 Q4) as (ns & F1 & F2 & F3 & F4 & F5). destruct (H own O1 Q3) as (a & n & G1 & G2 & G3 & G4).
    exists (Elem (node_name (class k)) a n :: ns). repeat split; constructor; try assumption. eauto. }
  destruct K as (ns & K1 & K2 & K3 & K4 & K5).
  pose proof (write_entries_ok (reso_of c ctx vs) vs (writes c) os [] (writes_nodup c) (fun _ _ H => H) W) as WE. cbn [app] in WE.
  exists (pairs (writes c) os), ns. cbn [class]. split; [rewrite write_obj_eq, WE; cbn [bind]; fold own; now rewrite (write_kids_ok own ks ns K1)|].
  pose proof (names_chk c) as NC. apply andb_prop in NC as (NC & NA). rewrite forallb_forall in NA.
  split; [|split].
  - constructor; [now apply name_chk_ok|now apply pairs_nodup, writes_nodup| |exact K2].
    apply Forall_forall. intros (a, b) I. cbn [fst snd]. split; [|exact (proj2 (attr_no_cr c ctx vs os a b A Q1 W I))].
    apply pairs_in in I as (p & Ip & <- & _). apply name_chk_ok, NA. now apply in_map.
  - constructor; [|exact K3|now apply apart_elems].
    apply Forall_forall. intros (a, b) I. exact (proj1 (attr_no_cr c ctx vs os a b A Q1 W I)).
  - destruct ks as [|k ks]; [inversion K5; subst; constructor|]. inversion K5; subst. cbn [levels]. constructor; [discriminate|]. now apply (nested_kids (k :: ks)).
Qed.
