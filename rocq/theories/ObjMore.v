(** C91, C92: nodes with more than is known; objects that are lost. *)
From Coq Require Import String List NArith ZArith Bool Lia Permutation.
From Coq Require Import ZifyN ZifyNat ZifyBool.
From Verif Require Import Bytes BytesProofs Txt UtfModel StringModel StringSpec NumModel FloatModel ConvModel EnumModel VecModel DmxModel
  XmlModel XmlProofs AttrModel AttrProps ObjModel ObjSpec ObjConv ObjAttrs ObjTree ObjCheck ObjProps.
Import ListNotations.
Open Scope N_scope.
Open Scope list_scope.
Ltac Zify.zify_post_hook ::= idtac.

(** ** C91 *)
(** A node an object of class [c] does not look for: no element, or one with another name. *)
Definition other_name (c : cls) (name : list N) : Prop :=
  ascii name /\ forall s p, In s (slots c) -> In p (s_kinds s) -> ~ same name (txt (fst p)).
Definition not_looked_for (c : cls) (k : node) : Prop := match k with Elem name _ _ => other_name c name | _ => True end.
(** The second node is the first one with other attributes, attributes in another order and other nodes added
    anywhere. *)
Inductive wider : cls -> node -> node -> Prop :=
| wider_i c m attrs attrs' kids kids' :
    (forall e, In e (reads c) -> get_attr (r_attr e) attrs' = get_attr (r_attr e) attrs) ->
    Forall (fun a => ascii (fst a)) attrs' -> wider_kids c kids kids' -> wider c (Elem m attrs kids) (Elem m attrs' kids')
with wider_kids : cls -> list node -> list node -> Prop :=
| wk_nil c : wider_kids c [] []
| wk_new c k ks ks' : not_looked_for c k -> wider_kids c ks ks' -> wider_kids c ks (k :: ks')
| wk_same c k ks ks' : wider_kids c ks ks' -> wider_kids c (k :: ks) (k :: ks')
| wk_kid c name d a b a' b' ks ks' :
    (forall s p, In s (slots c) -> In p (s_kinds s) -> same name (txt (fst p)) -> snd p = d) -> ascii name ->
    wider d (Elem name a b) (Elem name a' b') -> wider_kids c ks ks' ->
    wider_kids c (Elem name a b :: ks) (Elem name a' b' :: ks').

Lemma read_entries_same reso attrs attrs' : forall es st, (forall e, In e es -> get_attr (r_attr e) attrs' = get_attr (r_attr e) attrs) ->
  read_entries reso attrs' es st = read_entries reso attrs es st.
Proof.
  induction es as [|e es IH]; intros st H; [reflexivity|]. cbn [read_entries].
  assert (read_entry reso attrs' e st = read_entry reso attrs e st) as ->.
  { unfold read_entry, attr_text. now rewrite (H e (or_introl eq_refl)). }
  destruct (read_entry reso attrs e st); cbn [bind]; auto. apply IH. intros x Hx. apply H. now right.
Qed.
Lemma kind_none kinds name : (forall p, In p kinds -> ~ same name (txt (fst p))) -> kind_of kinds name = None.
Proof.
  intros H. unfold kind_of. destruct (find (fun p => txeq name (txt (fst p))) kinds) as [p|] eqn:F; [|reflexivity].
  apply List.find_some in F as (I & E). apply txeq_same in E. destruct (H p I E).
Qed.
Lemma kind_some kinds name d : (forall p, In p kinds -> same name (txt (fst p)) -> snd p = d) -> kind_of kinds name = None \/ kind_of kinds name = Some d.
Proof.
  intros H. unfold kind_of. destruct (find (fun p => txeq name (txt (fst p))) kinds) as [p|] eqn:F; [|now left]. right.
  apply List.find_some in F as (I & E). apply txeq_same in E. now rewrite (H p I E).
Qed.
Section Reading.
Variables (rd rd' : cls -> node -> res (obj * N)) (c : cls).
Hypothesis same_rd : forall d n r, rd d n = Ok r -> rd' d n = Ok r.
Hypothesis more : forall d n n' o e, wider d n n' -> rd d n = Ok (o, e) -> exists e', rd' d n' = Ok (o, e').
Lemma elements_wider ks ks' : wider_kids c ks ks' -> forall els, elements ks = Ok els -> exists els', elements ks' = Ok els'
  /\ forall s l e, In s (slots c) -> read_all rd (s_kinds s) els = Ok (l, e) -> exists e', read_all rd' (s_kinds s) els' = Ok (l, e').
Proof.
  remember c as c0 eqn:Ec. intros H. revert Ec. induction H as [c0|c0 k ks ks' O H IH|c0 k ks ks' H IH|c0 name d a b a' b' ks ks' S As Wd H IH]; intros -> els E.
  - exists []. split; [reflexivity|]. injection E as <-. intros s l e _ R. exists e. exact R.
  - destruct (IH eq_refl els E) as (els' & E' & R'). destruct k as [name a b|v|v|v|v|v];
      try (exists els'; split; [exact E'|exact R']; fail).
    destruct O as (As & Ot). exists ((name, Elem name a b) :: els'). cbn [elements]. rewrite (ascii_text _ As), E'. cbn [bind]. split; [reflexivity|].
    intros s l e Is R. cbn [read_all]. rewrite kind_none by (intros p Ip; exact (Ot s p Is Ip)). exact (R' s l e Is R).
  - destruct k as [name a b|v|v|v|v|v]; try (destruct (IH eq_refl els E) as (els' & E' & R'); exists els'; split; [exact E'|exact R']; fail).
    cbn [elements] in E |- *. destruct (text_of name) as [t| | |]; try discriminate E. cbn [bind] in E |- *.
    destruct (elements ks) as [els0| | |]; try discriminate E. cbn [bind] in E. injection E as <-.
    destruct (IH eq_refl els0 eq_refl) as (els' & E' & R'). rewrite E'. exists ((t, Elem name a b) :: els'). split; [reflexivity|].
    intros s l e Is R. cbn [read_all] in R |- *. destruct (kind_of (s_kinds s) t) as [k|]; [|exact (R' s l e Is R)].
    destruct (rd k (Elem name a b)) as [x| | |] eqn:X; try discriminate R. cbn [bind] in R. rewrite (same_rd _ _ _ X). cbn [bind].
    destruct (read_all rd (s_kinds s) els0) as [y| | |] eqn:Y; try discriminate R. cbn [bind] in R. injection R as <- <-.
    destruct y as (yl, ye). destruct (R' s yl ye Is Y) as (e' & ->). cbn [bind fst snd]. eexists. reflexivity.
  - cbn [elements] in E |- *. rewrite (ascii_text _ As) in E |- *. cbn [bind] in E |- *.
    destruct (elements ks) as [els0| | |]; try discriminate E. cbn [bind] in E. injection E as <-.
    destruct (IH eq_refl els0 eq_refl) as (els' & E' & R'). rewrite E'. exists ((name, Elem name a' b') :: els'). split; [reflexivity|].
    intros s l e Is R. cbn [read_all] in R |- *. destruct (kind_some (s_kinds s) name d (fun p Ip => S s p Is Ip)) as [K|K]; rewrite K in R |- *; [exact (R' s l e Is R)|].
    destruct (rd d (Elem name a b)) as [(x, xe)| | |] eqn:X; try discriminate R. cbn [bind] in R. destruct (more _ _ _ _ _ Wd X) as (xe' & ->). cbn [bind].
    destruct (read_all rd (s_kinds s) els0) as [y| | |] eqn:Y; try discriminate R. cbn [bind] in R. injection R as <- <-.
    destruct y as (yl, ye). destruct (R' s yl ye Is Y) as (e' & ->). cbn [bind fst snd]. eexists. reflexivity.
Qed.
Lemma child_wider ks ks' name d : wider_kids c ks ks' -> (exists s, In s (slots c) /\ In (name, d) (s_kinds s)) ->
  match child_named (txt name) ks with
  | None => child_named (txt name) ks' = None
  | Some n => exists n', child_named (txt name) ks' = Some n' /\ forall o e, rd d n = Ok (o, e) -> exists e', rd' d n' = Ok (o, e')
  end.
Proof.
  remember c as c0 eqn:Ec. intros H (s & Is & Ip). revert Ec. induction H as [c0|c0 k ks ks' O H IH|c0 k ks ks' H IH|c0 name' d' a b a' b' ks ks' S As Wd H IH]; intros ->.
  - reflexivity.
  - specialize (IH Is eq_refl). destruct k as [m a b|v|v|v|v|v]; try exact IH. cbn [child_named]. destruct (eqb_bytes m (txt name)) eqn:E; [|exact IH].
    apply eqb_bytes_iff in E. destruct O as (_ & O). exfalso. apply (O s _ Is Ip). now rewrite E.
  - specialize (IH Is eq_refl). destruct k as [m a b|v|v|v|v|v]; try exact IH. cbn [child_named]. destruct (eqb_bytes m (txt name)); [|exact IH].
    eexists. split; [reflexivity|]. intros o e R. exists e. now apply same_rd.
  - specialize (IH Is eq_refl). cbn [child_named]. destruct (eqb_bytes name' (txt name)) eqn:E; [|exact IH]. apply eqb_bytes_iff in E.
    assert (d' = d) as ->. { symmetry. apply (S s _ Is Ip). now rewrite E. }
    eexists. split; [reflexivity|]. intros o e R. exact (more _ _ _ _ _ Wd R).
Qed.
Lemma slot_wider ctx s ks ks' els els' l e : In s (slots c) -> wider_kids c ks ks' ->
  (forall s l e, In s (slots c) -> read_all rd (s_kinds s) els = Ok (l, e) -> exists e', read_all rd' (s_kinds s) els' = Ok (l, e')) ->
  read_slot rd ctx s ks els = Ok (l, e) -> exists e', read_slot rd' ctx s ks' els' = Ok (l, e').
Proof.
  intros Is Hw RA R. unfold read_slot in *.
  assert (ONE : forall absent l e, read_one rd (s_kinds s) absent ks = Ok (l, e) -> exists e', read_one rd' (s_kinds s) absent ks' = Ok (l, e')).
  { clear R l e. intros absent l e R. unfold read_one in *. destruct (s_kinds s) as [|(name, d) kinds] eqn:Ek; [exists e; exact R|].
    pose proof (child_wider ks ks' name d Hw) as C. specialize (C ltac:(exists s; split; [exact Is|rewrite Ek; now left])).
    destruct (child_named (txt name) ks) as [n|]; [|rewrite C; exists e; exact R]. destruct C as (n' & -> & C).
    destruct (rd d n) as [(o, oe)| | |]; try discriminate R. cbn [bind fst snd] in R. injection R as <- <-. destruct (C o oe eq_refl) as (e' & ->).
    cbn [bind fst snd]. eexists. reflexivity. }
  destruct (s_mode s).
  - destruct (read_all rd (s_kinds s) els) as [(x, xe)| | |] eqn:X; try discriminate R. cbn [bind fst snd] in R. destruct (RA s x xe Is X) as (e' & ->).
    cbn [bind fst snd]. destruct (after_reading (s_post s) ctx x) as [(y, ye)| | |]; try discriminate R. cbn [bind fst snd] in R |- *. injection R as <- <-. eexists. reflexivity.
  - exact (ONE _ l e R).
  - exact (ONE _ l e R).
  - exists e. exact R.
Qed.
Lemma slots_wider ctx ks ks' els els' : wider_kids c ks ks' ->
  (forall s l e, In s (slots c) -> read_all rd (s_kinds s) els = Ok (l, e) -> exists e', read_all rd' (s_kinds s) els' = Ok (l, e')) ->
  forall ss l e, (forall s, In s ss -> In s (slots c)) -> read_slots rd ctx ss ks els = Ok (l, e) -> exists e', read_slots rd' ctx ss ks' els' = Ok (l, e').
Proof.
  intros Hw RA. induction ss as [|s ss IH]; intros l e Sub R; [exists e; exact R|]. cbn [read_slots] in R |- *.
  destruct (read_slot rd ctx s ks els) as [(x, xe)| | |] eqn:X; try discriminate R. cbn [bind] in R.
  destruct (slot_wider ctx s ks ks' els els' x xe (Sub s (or_introl eq_refl)) Hw RA X) as (e1 & ->). cbn [bind].
  destruct (read_slots rd ctx ss ks els) as [(y, ye)| | |] eqn:Y; try discriminate R. cbn [bind fst snd] in R. injection R as <- <-.
  destruct (IH y ye (fun z Hz => Sub z (or_intror Hz)) eq_refl) as (e2 & ->). cbn [bind fst snd]. eexists. reflexivity.
Qed.
End Reading.
Lemma read_all_mono (rd rd' : cls -> node -> res (obj * N)) kinds : (forall d n r, rd d n = Ok r -> rd' d n = Ok r) ->
  forall els r, read_all rd kinds els = Ok r -> read_all rd' kinds els = Ok r.
Proof.
  intros H. induction els as [|(t, n) els IH]; intros r E; [exact E|]. cbn [read_all] in *. destruct (kind_of kinds t) as [k|]; [|exact (IH r E)].
  destruct (rd k n) as [x| | |] eqn:X; try discriminate E. rewrite (H _ _ _ X). cbn [bind] in *.
  destruct (read_all rd kinds els) as [y| | |]; try discriminate E. now rewrite (IH y eq_refl).
Qed.
Lemma read_one_mono (rd rd' : cls -> node -> res (obj * N)) kinds absent kids : (forall d n r, rd d n = Ok r -> rd' d n = Ok r) ->
  forall r, read_one rd kinds absent kids = Ok r -> read_one rd' kinds absent kids = Ok r.
Proof.
  intros H r E. unfold read_one in *. destruct kinds as [|(name, d) kinds]; [exact E|]. destruct (child_named (txt name) kids) as [n|]; [|exact E].
  destruct (rd d n) as [x| | |] eqn:X; try discriminate E. now rewrite (H _ _ _ X).
Qed.
Lemma read_slots_mono (rd rd' : cls -> node -> res (obj * N)) ctx kids els : (forall d n r, rd d n = Ok r -> rd' d n = Ok r) ->
  forall ss r, read_slots rd ctx ss kids els = Ok r -> read_slots rd' ctx ss kids els = Ok r.
Proof.
  intros H. induction ss as [|s ss IH]; intros r E; [exact E|]. cbn [read_slots] in *.
  destruct (read_slot rd ctx s kids els) as [x| | |] eqn:X; try discriminate E. cbn [bind] in E.
  assert (read_slot rd' ctx s kids els = Ok x) as ->.
  { unfold read_slot in *. destruct (s_mode s); [|now apply (read_one_mono rd)|now apply (read_one_mono rd)|exact X].
    destruct (read_all rd (s_kinds s) els) as [z| | |] eqn:Z; try discriminate X. now rewrite (read_all_mono rd rd' _ H _ _ Z). }
  cbn [bind]. destruct (read_slots rd ctx ss kids els) as [y| | |]; try discriminate E. now rewrite (IH y eq_refl).
Qed.
Section Wider.
Variable hash : list N -> N.
Variable buckets : N.
Lemma read_mono : forall fuel fuel' ctx c n r, (fuel <= fuel')%nat -> read_obj hash buckets fuel ctx c n = Ok r -> read_obj hash buckets fuel' ctx c n = Ok r.
Proof.
  induction fuel as [|fuel IH]; intros fuel' ctx c n r L E; [discriminate E|]. destruct fuel' as [|fuel']; [inversion L|].
  destruct n as [m a b|v|v|v|v|v]; try discriminate E. cbn [read_obj] in *.
  destruct (read_entries (reso_of c ctx) a (reads c) (fields c, 0)) as [st| | |]; try discriminate E. cbn [bind] in *. cbv zeta in *.
  destruct (elements b) as [els| | |]; try discriminate E. cbn [bind] in *.
  destruct (read_slots _ _ (slots c) b els) as [ks| | |] eqn:X; try discriminate E.
  assert (M : forall d n r, read_obj hash buckets fuel (own_offsets c ctx (fst st)) d n = Ok r -> read_obj hash buckets fuel' (own_offsets c ctx (fst st)) d n = Ok r).
  { intros. apply IH; [now apply le_S_n|assumption]. }
  rewrite (read_slots_mono _ _ _ _ _ M _ _ X). exact E.
Qed.
Lemma ascii_texts l : Forall ascii l -> each_text l = Ok l.
Proof. induction 1 as [|x l A _ IH]; [reflexivity|]. cbn [each_text]. now rewrite (ascii_text _ A), IH. Qed.
Lemma read_wider : forall fuel fuel' ctx c n n' o e, (fuel <= fuel')%nat -> wider c n n' ->
  read_obj hash buckets fuel ctx c n = Ok (o, e) -> exists e', read_obj hash buckets fuel' ctx c n' = Ok (o, e').
Proof.
  induction fuel as [|fuel IH]; intros fuel' ctx c n n' o e L Hw E; [discriminate E|]. destruct fuel' as [|fuel']; [inversion L|]. apply le_S_n in L.
  destruct Hw as [c m a a' b b' Ha As Hk]. cbn [read_obj] in *. rewrite (read_entries_same _ a a' (reads c) _ Ha).
  destruct (read_entries (reso_of c ctx) a (reads c) (fields c, 0)) as [st| | |]; try discriminate E. cbn [bind] in *. cbv zeta in *.
  destruct (elements b) as [els| | |] eqn:El; try discriminate E. cbn [bind] in *.
  assert (M : forall d n r, read_obj hash buckets fuel (own_offsets c ctx (fst st)) d n = Ok r -> read_obj hash buckets fuel' (own_offsets c ctx (fst st)) d n = Ok r)
    by (intros; eapply read_mono; eassumption).
  assert (More : forall d n n' o e, wider d n n' -> read_obj hash buckets fuel (own_offsets c ctx (fst st)) d n = Ok (o, e)
    -> exists e', read_obj hash buckets fuel' (own_offsets c ctx (fst st)) d n' = Ok (o, e')) by (intros; eapply IH; eassumption).
  destruct (elements_wider _ _ c M More b b' Hk els El) as (els' & -> & RA). cbn [bind].
  destruct (read_slots _ _ (slots c) b els) as [(ks, ke)| | |] eqn:X; try discriminate E. cbn [bind] in E.
  destruct (slots_wider _ _ c M More _ b b' els els' Hk RA (slots c) ks ke (fun _ H => H) X) as (ke' & ->). cbn [bind].
  destruct (check hash buckets c (fst st) a) as [ce| | |] eqn:C; try discriminate E. cbn [bind fst snd] in *.
  assert (exists ce', check hash buckets c (fst st) a' = Ok ce') as (ce' & ->).
  { unfold check. destruct (attribute_lists c (fst st)) as [(needed, optional)|]; [|eexists; reflexivity].
    rewrite ascii_texts; [eexists; reflexivity|]. rewrite Forall_map. exact As. }
  cbn [bind fst snd]. injection E as <- <-. eexists. reflexivity.
Qed.
Scheme wider_ind2 := Minimality for wider Sort Prop with wider_kids_ind2 := Minimality for wider_kids Sort Prop.
Lemma wider_depth : forall c n n', wider c n n' -> (depth n <= depth n')%nat.
Proof.
  apply (wider_ind2 (fun _ n n' => (depth n <= depth n')%nat) (fun _ ks ks' => (fold_right Nat.max O (map depth ks) <= fold_right Nat.max O (map depth ks'))%nat));
    intros; cbn [depth map fold_right] in *; lia.
Qed.
(** Reading passes over what it does not know: with further attributes, attributes in another order and further
    nodes, at any level, the same object is read. *)
Theorem C91_tolerant : forall ctx c n n' o e, wider c n n' -> read_node hash buckets ctx c n = Ok (o, e) ->
  exists e', read_node hash buckets ctx c n' = Ok (o, e').
Proof. intros. unfold read_node in *. eapply read_wider; [|eassumption|eassumption]. eapply wider_depth; eassumption. Qed.
End Wider.
(** So it is for everything this library wrote. *)
Theorem C91_written hash buckets ctx o n n' : obj_ok ctx o -> write_obj ctx o = Ok n -> wider (class o) n n' ->
  exists o' e, read_node hash buckets ctx (class o) n' = Ok (o', e) /\ same_obj o o'.
Proof.
  intros O W Hw. destruct (C88_tree hash buckets ctx o O) as (m & o' & W' & R & S & _). rewrite W in W'. apply Ok_inj in W'. subst m.
  destruct (C91_tolerant hash buckets ctx _ _ _ _ _ Hw R) as (e & R'). exists o', e. auto.
Qed.
(** The order of the attributes does not matter. *)
Lemma get_permuted name a a' : Permutation a a' -> NoDup (map fst a) -> get_attr name a' = get_attr name a.
Proof.
  induction 1 as [|(x, v) a a' P IH|(x, v) (y, u) a|a a' a'' P1 IH1 P2 IH2]; intros D; [reflexivity| | |].
  - inversion D; subst. cbn [get_attr]. now rewrite IH.
  - cbn [get_attr]. destruct (eqb_bytes y name) eqn:Ey, (eqb_bytes x name) eqn:Ex; try reflexivity.
    apply eqb_bytes_iff in Ex, Ey. subst. inversion D as [|? ? N1 N2]; subst. destruct N1. now left.
  - rewrite IH2, IH1; [reflexivity|exact D|]. eapply Permutation_NoDup; [|exact D]. now apply Permutation_map.
Qed.
Lemma wider_refl_kids c : forall ks, wider_kids c ks ks.
Proof. induction ks; constructor; assumption. Qed.
Theorem C91_order hash buckets ctx c m a a' kids o e : Permutation a a' -> NoDup (map fst a) -> Forall (fun x => ascii (fst x)) a ->
  read_node hash buckets ctx c (Elem m a kids) = Ok (o, e) -> exists e', read_node hash buckets ctx c (Elem m a' kids) = Ok (o, e').
Proof.
  intros P D As R. eapply C91_tolerant; [|exact R]. constructor; [|now rewrite <- P|apply wider_refl_kids].
  intros r _. now apply get_permuted.
Qed.
(** A wheel with an attribute, a node and a comment of a later version; its two slots are found as before. *)
Definition plain_wheel : node := Elem (T"Wheel") [(T"Name", T"Gobos")]
  [Elem (T"Slot") [(T"Name", T"Open"); (T"Color", T"0.3,0.3,100.0")] []; Elem (T"Slot") [(T"Name", T"Dots")] []].
Definition later_wheel : node := Elem (T"Wheel") [(T"Vendor", T"x"); (T"Name", T"Gobos")]
  [Elem (T"Slot") [(T"Color", T"0.3,0.3,100.0"); (T"Name", T"Open"); (T"Speed", T"7")] [Elem (T"Shine") [] []]; Comment (T"new"); Elem (T"Motor") [(T"Name", T"m")] [];
   Elem (T"Slot") [(T"Name", T"Dots")] []].
Example C91_case : exists o e', read_node (fun _ => 0) 1 (0, 0, 0, 0) CWheel plain_wheel = Ok (o, 0) /\ List.length (children o) = 2%nat
  /\ wider CWheel plain_wheel later_wheel /\ read_node (fun _ => 0) 1 (0, 0, 0, 0) CWheel later_wheel = Ok (o, e') /\ e' = 2.
Proof.
  eexists _, _. split; [vm_compute; reflexivity|]. split; [reflexivity|]. split; [|split; [vm_compute; reflexivity|reflexivity]].
  assert (A1 : forall b, forallb (fun c => (c <? 128) && negb (c =? 0) && negb (c =? 13)) b = true -> ascii b).
  { intros b H. unfold ascii. rewrite Forall_forall. rewrite forallb_forall in H. intros x Hx. specialize (H x Hx). lia. }
  assert (Rd : forall c a a', forallb (fun e => match get_attr (r_attr e) a', get_attr (r_attr e) a with None, None => true | Some x, Some y => eqb_bytes x y | _, _ => false end) (reads c) = true ->
    forall e, In e (reads c) -> get_attr (r_attr e) a' = get_attr (r_attr e) a).
  { intros c a a' H e I. rewrite forallb_forall in H. specialize (H e I). destruct (get_attr _ a'), (get_attr _ a); try discriminate H; [|reflexivity]. now apply eqb_bytes_iff in H as ->. }
  assert (No : forall c name, forallb (fun s => forallb (fun p => negb (named name [txt (fst p)])) (s_kinds s)) (slots c) = true ->
    forall s p, In s (slots c) -> In p (s_kinds s) -> ~ same name (txt (fst p))).
  { intros c name H s p Is Ip E. rewrite forallb_forall in H. specialize (H s Is). rewrite forallb_forall in H. specialize (H p Ip).
    unfold named in H. cbn [existsb] in H. unfold same in E. rewrite E, eqb_bytes_refl in H. discriminate H. }
  constructor; [apply Rd; reflexivity|repeat (apply Forall_cons; [apply A1; reflexivity|]); apply Forall_nil|].
  apply wk_kid with (d := CWheelSlot).
  - intros s p [<- |[]] Ip _. repeat (destruct Ip as [<- |Ip]; [reflexivity|]). destruct Ip.
  - apply A1. reflexivity.
  - constructor; [apply Rd; reflexivity|repeat (apply Forall_cons; [apply A1; reflexivity|]); apply Forall_nil|]. apply wk_new; [|constructor].
    split; [apply A1; reflexivity|]. apply No. reflexivity.
  - apply wk_new; [exact I|]. apply wk_new; [|apply wider_refl_kids]. split; [apply A1; reflexivity|]. apply No. reflexivity.
Qed.

(** ** C87, C88: the hypotheses leave nothing out *)
(** Members that no attribute of their own is written for: flags; the value of an old attribute that is read and moved elsewhere; the
    number a measurement of the other kind has. *)
Definition unwritten (c : cls) (g : string) : Prop :=
  match c with
  | CAttribute => g = "fHasColor"
  | CDmxChannel => g = "fDefaultValue_old"
  | CDmxChannelSet => g = "fSetPhysical" \/ g = "fValid"
  | CFixture => g = "fHasLinkedGuid"
  | CMeasurementF => g = "fLuminousIntensity"
  | CMeasurementE => g = "fTransmission"
  | _ => False
  end%string.
Theorem C87_members c g : In g (map fst (fields c)) -> ~ unwritten c g -> exists e, In e (writes c) /\ w_field e = g.
Proof.
  intros I U. cut (In g (map w_field (writes c))). { intros H. apply in_map_iff in H as (e & <- & H). eauto. }
  destruct c; cbn in I |- *; cbn [unwritten] in U; repeat (destruct I as [<- |I]; [clear -U; tauto|]); destruct I.
Qed.
(** An attribute is left out because its member is an empty text, 0, or the group of members is not used. *)
Definition not_used (c : cls) (a : list N) (vs : env) : Prop :=
  match c with
  | CAttribute => a = T"Color" /\ get "fHasColor" vs <> VFlag true
  | CDmxChannelFunction => In a [T"ModeFrom"; T"ModeTo"] /\ no_text "fModeMaster" vs = true
  | CDmxChannelSet => In a [T"PhysicalFrom"; T"PhysicalTo"] /\ get "fSetPhysical" vs <> VFlag true
  | CColorSpace => In a [T"Red"; T"Green"; T"Blue"; T"WhitePoint"] /\ get "fColorSpace" vs <> VNat 1
  | CFixture => a = T"RefFT" /\ get "fHasLinkedGuid" vs <> VFlag true
  | _ => False
  end.
Lemma no_flag g vs : flag g vs = false -> get g vs <> VFlag true.
Proof. unfold flag. intros H E. now rewrite E in H. Qed.
Lemma not_kind g n vs : kind_is g n vs = false -> get g vs <> VNat n.
Proof. unfold kind_is. intros H E. rewrite E, N.eqb_refl in H. discriminate H. Qed.
Theorem C87_left_out c vs e : In e (writes c) -> shown vs e = false ->
  no_text (w_field e) vs = true /\ w_conv e = KText \/ is_zero (get (w_field e) vs) = true \/ not_used c (w_attr e) vs.
Proof.
  intros I H.
  destruct c; cbn in I; repeat (destruct I as [<- |I]; [unfold shown in H; cbn [w_when w wi] in H;
    first [ discriminate H
          | left; split; [now apply negb_false_iff in H|reflexivity]
          | right; left; now apply negb_false_iff in H
          | right; right; apply negb_false_iff in H; cbn; split; [tauto|exact H]
          | right; right; apply no_flag in H; cbn; split; [tauto|exact H]
          | right; right; apply not_kind in H; cbn; split; [tauto|exact H] ]|]); destruct I.
Qed.
Theorem C87_not_used c vs e : In e (writes c) -> not_used c (w_attr e) vs -> shown vs e = false.
Proof.
  assert (F : forall g, get g vs <> VFlag true -> flag g vs = false).
  { intros g H. unfold flag. destruct (get g vs) as [| | | |[|]| | | | | | | | |]; try reflexivity. now destruct H. }
  assert (K : forall g n, get g vs <> VNat n -> kind_is g n vs = false).
  { intros g n H. unfold kind_is. destruct (get g vs) as [| | |m| | | | | | | | | |]; try reflexivity. apply N.eqb_neq. congruence. }
  intros I H.
  destruct c; cbn [not_used] in H; try contradiction; destruct H as (A & H); cbn in I;
    repeat (destruct I as [<- |I]; [unfold shown; cbn [w_when w wi w_attr] in A |- *; try (apply F; exact H); try (apply K; exact H); try (rewrite H; reflexivity);
      exfalso; revert A; vm_compute; intuition discriminate|]); destruct I.
Qed.
Example C87_left_out_case : exists e, In e (writes CAttribute) /\ w_attr e = T"Color" /\ shown (fields CAttribute) e = false /\ not_used CAttribute (w_attr e) (fields CAttribute).
Proof. exists (wi "Color" "fColor" KColor (IfFlag "fHasColor"))%string. split; [cbn; tauto|]. split; [reflexivity|]. split; [reflexivity|]. split; [reflexivity|discriminate]. Qed.
(** Every class has its place in a fixture, apart from the presets. *)
Inductive below : cls -> Prop :=
| below_fixture : below CFixture
| below_step c s p : below c -> In s (slots c) -> s_mode s <> Ignored -> In p (s_kinds s) -> below (snd p).
Theorem C88_places c : c <> CFTPresets -> c <> CUserPreset -> below c.
Proof.
  intros N1 N2.
  assert (Step : forall c d, below c -> existsb (fun s => match s_mode s with Ignored => false | _ => existsb (fun p => if cls_dec (snd p) d then true else false) (s_kinds s) end) (slots c) = true -> below d).
  { intros a d B H. apply existsb_exists in H as (s & Is & H). assert (M : s_mode s <> Ignored) by (intros E; rewrite E in H; discriminate H).
    assert (H' : existsb (fun p => if cls_dec (snd p) d then true else false) (s_kinds s) = true) by (destruct (s_mode s); try exact H; contradiction).
    apply existsb_exists in H' as (p & Ip & E). destruct (cls_dec (snd p) d) as [<- |]; [|discriminate E]. exact (below_step a s p B Is M Ip). }
  pose proof below_fixture as B0.
  assert (B1 : below CAttributeDefinitions /\ below CWheels /\ below CPhysicalDescriptions /\ below CModels /\ below CGeometries /\ below CDMXModes /\ below CRevisions /\ below CProtocols)
    by (repeat split; apply (Step CFixture); solve [exact B0|reflexivity]).
  destruct B1 as (A1 & A2 & A3 & A4 & A5 & A6 & A7 & A8).
  assert (C1 : below CActivationGroups /\ below CFeatureGroups /\ below CAttributes) by (repeat split; apply (Step CAttributeDefinitions); solve [exact A1|reflexivity]).
  assert (C2 : below CDmxMode) by (apply (Step CDMXModes); [exact A6|reflexivity]).
  assert (C3 : below CDMXChannels /\ below CRelations /\ below CFTMacros) by (repeat split; apply (Step CDmxMode); solve [exact C2|reflexivity]).
  assert (C4 : below CDmxChannel) by (apply (Step CDMXChannels); [tauto|reflexivity]).
  assert (C5 : below CDmxLogicalChannel) by (apply (Step CDmxChannel); [tauto|reflexivity]).
  assert (C6 : below CDmxChannelFunction) by (apply (Step CDmxLogicalChannel); [tauto|reflexivity]).
  assert (C7 : below CMacro) by (apply (Step CFTMacros); [tauto|reflexivity]).
  assert (C8 : below CMacroDMX /\ below CMacroVisual) by (repeat split; apply (Step CMacro); solve [tauto|reflexivity]).
  assert (C9 : below CMacroDMXStep) by (apply (Step CMacroDMX); [tauto|reflexivity]).
  assert (D1 : below CMacroVisualStep) by (apply (Step CMacroVisual); [tauto|reflexivity]).
  assert (D2 : below CColorSpace /\ below CAdditionalColorSpaces /\ below CGamuts /\ below CFilters /\ below CEmitters /\ below CDMXProfiles /\ below CCRIs /\ below CConnectors /\ below CProperties)
    by (repeat split; apply (Step CPhysicalDescriptions); solve [tauto|reflexivity]).
  assert (D3 : below CFilter) by (apply (Step CFilters); [tauto|reflexivity]).
  assert (D4 : below CPhysicalEmitter) by (apply (Step CEmitters); [tauto|reflexivity]).
  assert (D5 : below CMeasurementE) by (apply (Step CPhysicalEmitter); [tauto|reflexivity]).
  assert (D6 : below CDMXProfile) by (apply (Step CDMXProfiles); [tauto|reflexivity]).
  assert (D7 : below CCRIGroup) by (apply (Step CCRIs); [tauto|reflexivity]).
  assert (D8 : below CFTRDM /\ below CArtNet /\ below CsAcn) by (repeat split; apply (Step CProtocols); solve [tauto|reflexivity]).
  assert (D9 : below CSoftwareVersionID) by (apply (Step CFTRDM); [tauto|reflexivity]).
  assert (E1 : below CWheel) by (apply (Step CWheels); [tauto|reflexivity]).
  assert (E2 : below CWheelSlot) by (apply (Step CWheel); [tauto|reflexivity]).
  assert (E3 : below CFeatureGroup) by (apply (Step CFeatureGroups); [tauto|reflexivity]).
  assert (E4 : below CAttribute) by (apply (Step CAttributes); [tauto|reflexivity]).
  assert (E5 : below CGeometryReference /\ below CGeometryLaser /\ below CGeometryWiringObject) by (repeat split; apply (Step CGeometries); solve [tauto|reflexivity]).
  destruct c; try contradiction; try tauto;
    first [ apply (Step CActivationGroups); [tauto|reflexivity] | apply (Step CFeatureGroup); [tauto|reflexivity] | apply (Step CAttribute); [tauto|reflexivity]
          | apply (Step CWheelSlot); [tauto|reflexivity] | apply (Step CModels); [tauto|reflexivity] | apply (Step CGeometries); [tauto|reflexivity]
          | apply (Step CGeometryLaser); [tauto|reflexivity] | apply (Step CGeometryWiringObject); [tauto|reflexivity] | apply (Step CGeometryReference); [tauto|reflexivity]
          | apply (Step CDmxChannelFunction); [tauto|reflexivity] | apply (Step CRelations); [tauto|reflexivity] | apply (Step CMacroDMXStep); [tauto|reflexivity]
          | apply (Step CMacroVisualStep); [tauto|reflexivity] | apply (Step CRevisions); [tauto|reflexivity] | apply (Step CFilter); [tauto|reflexivity]
          | apply (Step CMeasurementE); [tauto|reflexivity] | apply (Step CDMXProfile); [tauto|reflexivity] | apply (Step CCRIGroup); [tauto|reflexivity]
          | apply (Step CGamuts); [tauto|reflexivity] | apply (Step CConnectors); [tauto|reflexivity] | apply (Step CSoftwareVersionID); [tauto|reflexivity]
          | apply (Step CProtocols); [tauto|reflexivity] | apply (Step CArtNet); [tauto|reflexivity] | apply (Step CProperties); [tauto|reflexivity] ].
Qed.
(** Only the parts that exist once are limited in number. *)
Definition once (c d : cls) : Prop :=
  match d with
  | CAttributeDefinitions | CActivationGroups | CFeatureGroups | CAttributes | CWheels | CPhysicalDescriptions | CModels | CGeometries | CDMXModes
  | CRevisions | CFTPresets | CProtocols | CDMXChannels | CRelations | CFTMacros | CAdditionalColorSpaces | CGamuts | CFilters | CEmitters
  | CDMXProfiles | CCRIs | CConnectors | CProperties => True
  | CWheelSlotAnimationSystem | CMacroDMX | CMacroVisual | COperatingTemperature | CWeight | CLegHeight => True
  | CFTRDM | CArtNet | CsAcn | CKiNET | CPosiStageNet | COpenSoundControl | CCITP => True
  | CColorSpace => c = CPhysicalDescriptions
  | _ => False
  end.
Theorem C88_any_number c s d : In s (slots c) -> In d (map snd (s_kinds s)) -> ~ once c d -> s_mode s = All.
Proof.
  intros Is Id H. destruct c; cbn in Is; repeat (destruct Is as [<- |Is]; [|]); try destruct Is; cbn in Id; repeat (destruct Id as [<- |Id]; [|]); try destruct Id;
    try reflexivity; destruct H; exact I || reflexivity.
Qed.
Example C88_any_number_case : exists s, In s (slots CGamuts) /\ In CGamut (map snd (s_kinds s)) /\ ~ once CGamuts CGamut.
Proof. eexists. split; [left; reflexivity|]. split; [left; reflexivity|intros []]. Qed.
(** Every kind of geometry may stand below every other and among the geometries of the fixture. *)
Definition geometry_classes : list cls :=
  [CGeometry; CGeometryAxis; CGeometryBeamFilter; CGeometryColorFilter; CGeometryGoboFilter; CGeometryShaperFilter; CGeometryLamp;
   CGeometryMediaServerCamera; CGeometryMediaServerLayer; CGeometryMediaServerMaster; CGeometryReference; CGeometryDisplay; CGeometryLaser;
   CGeometryWiringObject; CGeometryInventory; CGeometryStructure; CGeometrySupport; CGeometryMagnet].
Theorem C88_geometries c d : In c (CGeometries :: geometry_classes) -> In d geometry_classes ->
  exists s, In s (slots c) /\ s_mode s = All /\ In d (map snd (s_kinds s)).
Proof.
  intros Ic Id. exists geometries. split; [|split; [reflexivity|]].
  - cbn in Ic. repeat (destruct Ic as [<- |Ic]; [now left|]). destruct Ic.
  - cbn in Id |- *. tauto.
Qed.

(** ** C92 *)
(** Presets are written but never read: the fixture comes back without them, and nothing is reported. *)
Definition with_preset : obj :=
  match fresh CFixture with
  | Obj c vs ks => Obj c vs (map (fun k => match k with Obj CFTPresets v _ => Obj CFTPresets v [mk CUserPreset [("fName"%string, tx "Look 1")] []] | _ => k end) ks)
  end.
Inductive has (c : cls) : obj -> Prop :=
| has_here vs ks : has c (Obj c vs ks)
| has_below d vs ks k : In k ks -> has c k -> has c (Obj d vs ks).
Fixpoint hasb (c : cls) (o : obj) : bool := match o with Obj d _ ks => (if cls_dec c d then true else false) || existsb (hasb c) ks end.
Lemma hasb_ok c : forall o, has c o -> hasb c o = true.
Proof.
  induction 1 as [vs ks|d vs ks k I H IH]; cbn [hasb]; [destruct (cls_dec c c); [reflexivity|contradiction]|].
  apply orb_true_iff. right. apply existsb_exists. eauto.
Qed.
Theorem C92_presets_refuted : exists o n o', has CUserPreset o /\ write_obj (0, 0, 0, 0) o = Ok n /\
  read_node (fun _ => 0) 1 (0, 0, 0, 0) (class o) n = Ok (o', 0) /\ ~ has CUserPreset o'.
Proof.
  exists with_preset. eexists _, _. split.
  { unfold with_preset. let x := eval vm_compute in (fresh CFixture) in change (fresh CFixture) with x. cbv iota. eapply has_below; [|].
    - cbn [map]. do 7 right. left. reflexivity.
    - eapply has_below; [left; reflexivity|]. apply has_here. }
  split; [vm_compute; reflexivity|]. split; [vm_compute; reflexivity|]. intros H. apply hasb_ok in H. vm_compute in H. discriminate H.
Qed.
(** A "/" in the name of a fixture comes back as "_". *)
Theorem C92_slash_refuted : exists o n o', get "fName" (members o) = tx "On/Off" /\ write_obj (0, 0, 0, 0) o = Ok n /\
  read_node (fun _ => 0) 1 (0, 0, 0, 0) (class o) n = Ok (o', 0) /\ get "fName" (members o') = tx "On_Off".
Proof.
  exists (match fresh CFixture with Obj c vs ks => Obj c (put "fName" (tx "On/Off") vs) ks end). eexists _, _.
  split; [vm_compute; reflexivity|]. split; [vm_compute; reflexivity|]. split; [vm_compute; reflexivity|vm_compute; reflexivity].
Qed.
(** The first channel function of a logical channel is moved to the value 0. *)
Theorem C92_first_refuted : exists o n o', map (dmx_start "fAdressStart") (children o) = [10; 200] /\ write_obj (1, 0, 0, 0) o = Ok n /\
  read_node (fun _ => 0) 1 (1, 0, 0, 0) (class o) n = Ok (o', 1) /\ map (dmx_start "fAdressStart") (children o') = [0; 200].
Proof.
  exists (mk CDmxLogicalChannel [("fAttribute", tx "Pan")] [mk CDmxChannelFunction [("fName", tx "Left"); ("fAdressStart", VDmx false 10)] [];
    mk CDmxChannelFunction [("fName", tx "Right"); ("fAdressStart", VDmx false 200)] []])%string. eexists _, _.
  split; [vm_compute; reflexivity|]. split; [vm_compute; reflexivity|]. split; [vm_compute; reflexivity|vm_compute; reflexivity].
Qed.
(** What was read without a report cannot be written: a laser of another type than "SingleWaveLength" has no colour, but its uninitialised
    member is written. *)
Definition laser : node := Elem (T"Laser")
  [(T"Name", T"L"); (T"Position", T"{1,0,0,0}{0,1,0,0}{0,0,1,0}{0,0,0,1}"); (T"ColorType", T"RGB"); (T"OutputStrength", T"5"); (T"Emitter", T"e");
   (T"BeamDiameter", T"0.01"); (T"BeamDivergenceMin", T"1"); (T"BeamDivergenceMax", T"2"); (T"ScanAnglePan", T"30"); (T"ScanAngleTilt", T"30"); (T"ScanSpeed", T"30000")] [].
Theorem C92_laser_refuted : exists n o, read_node (fun _ => 0) 1 (0, 0, 0, 0) CGeometryLaser n = Ok (o, 0) /\ write_obj (0, 0, 0, 0) o = UB.
Proof. exists laser. eexists. split; [vm_compute; reflexivity|vm_compute; reflexivity]. Qed.
(** A macro value without a channel is reported, and writing it uses a null pointer. *)
Theorem C92_null_refuted : exists n o, read_node (fun _ => 0) 1 (0, 0, 0, 0) CMacroDMXValue n = Ok (o, 1) /\ write_obj (0, 0, 0, 0) o = UB.
Proof. exists (Elem (T"MacroDMXValue") [(T"Value", T"255/1")] []). eexists. split; [vm_compute; reflexivity|vm_compute; reflexivity]. Qed.
Print Assumptions C87_members.
Print Assumptions C87_left_out.
Print Assumptions C87_not_used.
Print Assumptions C88_places.
Print Assumptions C88_any_number.
Print Assumptions C88_geometries.
Print Assumptions C91_tolerant.
Print Assumptions C91_written.
Print Assumptions C91_order.
Print Assumptions C92_presets_refuted.
Print Assumptions C92_slash_refuted.
Print Assumptions C92_first_refuted.
Print Assumptions C92_laser_refuted.
Print Assumptions C92_null_refuted.
