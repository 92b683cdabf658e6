(** Scene objects: written and read again. *)
From Coq Require Import String List NArith ZArith Bool Lia.
From Coq Require Import ZifyN ZifyNat ZifyBool.
From Verif Require Import Bytes BytesProofs Txt UtfModel StringModel StringSpec NumModel FloatModel ConvModel UuidModel UuidProps EnumModel VecModel VecProps
  XmlModel XmlSpec XmlProofs ObjModel ObjSpec ObjConv ObjAttrs ObjTree SceneModel SceneSpec SceneConv.
Import ListNotations.
Open Scope N_scope.
Open Scope list_scope.
Ltac Zify.zify_post_hook ::= idtac.

Section SInd.
Variable P : sobj -> Prop.
Hypothesis H : forall c vs kss, Forall (Forall P) kss -> P (SObj c vs kss).
Fixpoint sobj_induction (o : sobj) : P o :=
  match o with
  | SObj c vs kss => H c vs kss ((fix slots (l : list (list sobj)) : Forall (Forall P) l :=
      match l with
      | [] => Forall_nil _
      | ks :: rest => Forall_cons ks ((fix go (l : list sobj) : Forall P l :=
          match l with [] => Forall_nil P | k :: r => Forall_cons k (sobj_induction k) (go r) end) ks) (slots rest)
      end) kss)
  end.
End SInd.

(** ** What an entry writes *)
Definition enc (k : sconv) (v : val) : list N :=
  match swrite_conv k v with Ok s => match bytes_of s with Ok b => b | _ => [] end | _ => [] end.
Definition enc_command (vs : env) : list N :=
  match command_text vs with Ok s => match bytes_of s with Ok b => b | _ => [] end | _ => [] end.
Definition out_attrs (vs : env) (it : witem) : list (list N * list N) :=
  match it with WAttr a f k w => if written w (get f vs) then [(a, enc k (get f vs))] else [] | _ => [] end.
Definition out_kids (vs : env) (kss : list (list sobj)) (nss : list (list node)) (it : witem) : list node :=
  match it with
  | WNode n f k w => if written w (get f vs) then [text_node n (enc k (get f vs))] else []
  | WOwn f k => [Text (enc k (get f vs))]
  | WCommand => [Text (enc_command vs)]
  | WSlot i container empty_too _ =>
    match nth i kss [], container with
    | [], Some n => if empty_too then [Elem n [] []] else []
    | [], None => []
    | _ :: _, Some n => [Elem n [] (nth i nss [])]
    | _ :: _, None => nth i nss []
    end
  | WAttr _ _ _ _ => []
  end.
Definition attr_names (it : witem) : list (list N) := match it with WAttr a _ _ _ => [a] | _ => [] end.
Definition kid_names (ss : list rslot) (it : witem) : list (list N) :=
  match it with
  | WNode n _ _ _ => [n]
  | WSlot _ (Some n) _ _ => [n]
  | WSlot i None _ _ => match nth_error ss i with Some s => map (fun k => sname (snd k)) (rs_kinds s) | None => [] end
  | _ => []
  end.
Definition is_own (it : witem) : bool := match it with WOwn _ _ | WCommand => true | _ => false end.
Definition produces (it : witem) : bool := match it with WAttr _ _ _ _ => false | _ => true end.

(** ** Checks of the tables *)
Definition w_simple (it : witem) : bool := forallb (fun e => simple (snd (fst e))) (entry it).
Lemma chk_items c : distinct (flat_map attr_names (swrites c)) && distinct (flat_map (kid_names (sslots c)) (swrites c))
  && forallb w_simple (swrites c) && forallb plain_name (flat_map attr_names (swrites c) ++ flat_map (kid_names (sslots c)) (swrites c))
  && (negb (existsb is_own (swrites c)) || (List.length (filter produces (swrites c)) =? 1)%nat) = true.
Proof. destruct c; vm_compute; reflexivity. Qed.
Lemma sname_ascii c : ascii (sname c).
Proof.
  assert (plain_name (sname c) = true) by (destruct c; vm_compute; reflexivity). unfold plain_name in H. rewrite forallb_forall in H.
  apply Forall_forall. intros x Hx. specialize (H x Hx). lia.
Qed.
(** Every entry that is read is the one that is written under that name. *)
Definition default_of (w : swhen) : option val :=
  match w with WIfText => Some (VTxt []) | WIfNonZero => Some (VNat 0) | WIfMatrix => Some (VMat identity) | _ => None end.
Definition empty_reads (k : sconv) : Prop := match k with SC KText | SMulti => True | _ => False end.
Definition when_chk (c : scls) (f : string) (k : sconv) (w : swhen) : Prop :=
  match default_of w with Some v => get f (sfields c) = v | None => match w with WIfGuid => k = SGuid | _ => True end end.
Definition attr_is (a : list N) (it : witem) : bool := match it with WAttr b _ _ _ => eqb_bytes a b | _ => false end.
Definition node_is (a : list N) (it : witem) : bool := match it with WNode b _ _ _ => eqb_bytes a b | _ => false end.
Definition read_chk (c : scls) (r : ritem) : Prop :=
  match r with
  | RAttr a f k => match find (attr_is a) (swrites c) with
      | Some (WAttr a' f' k' w) => a' = a /\ f' = f /\ k' = k /\ when_chk c f k w /\ match default_of w with Some _ => empty_reads k | None => True end
      | _ => False end
  | RNode n f k => match find (node_is n) (swrites c) with
      | Some (WNode n' f' k' w) => n' = n /\ f' = f /\ k' = k /\ when_chk c f k w
      | _ => False end
  | ROwn f k => match find is_own (swrites c) with Some (WOwn f' k') => f' = f /\ k' = k | _ => False end
  | RCommand => match find is_own (swrites c) with Some WCommand => True | _ => False end
  end.
Lemma chk_reads c : Each (read_chk c) (sreads c).
Proof. destruct c; vm_compute; repeat split. Qed.
Definition r_fields (r : ritem) : list string :=
  match r with RAttr _ f _ | RNode _ f _ | ROwn f _ => [f] | RCommand => ["fValue"; "fChannelFunction"; "fIsPercentage"]%string end.
Fixpoint different (l : list string) : bool := match l with [] => true | a :: r => negb (mem a r) && different r end.
Lemma chk_fields c : different (flat_map r_fields (sreads c)) && forallb (fun p => mem (fst p) (flat_map r_fields (sreads c))) (sfields c) = true.
Proof. destruct c; vm_compute; reflexivity. Qed.
Definition slot_is (i : nat) (it : witem) : bool := match it with WSlot j _ _ _ => (i =? j)%nat | _ => false end.
Definition slot_chk (c : scls) (i : nat) (s : rslot) : Prop :=
  match find (slot_is i) (swrites c) with
  | Some (WSlot j container e d) => j = i /\ container = rs_container s /\ (if d then c = SMapDef /\ i = O else True) /\
      match container, rs_mode s with None, (RAll | RAllUuid) => filter produces (swrites c) = [WSlot j container e d] | _, _ => True end
  | _ => False
  end /\
  Each (fun k => skind_of (rs_kinds s) (sname (snd k)) = Some (snd k) /\ match snd k with SGobo => rs_mode s = ROne | _ => True end
    /\ (rs_mode s = RAllUuid -> find (attr_is T"uuid") (swrites (snd k)) = Some (WAttr T"uuid" "fGuid" SGuid WIfGuid))) (rs_kinds s) /\
  match rs_mode s, rs_kinds s with
  | (RAll | RAllUuid), _ => True
  | _, [(n, k)] => txt n = sname k
  | _, _ => False
  end.
Fixpoint slots_chk (c : scls) (i : nat) (ss : list rslot) : Prop :=
  match ss with [] => True | s :: r => slot_chk c i s /\ slots_chk c (S i) r end.
Lemma chk_slots c : slots_chk c 0 (sslots c).
Proof. destruct c; vm_compute; repeat split; discriminate. Qed.
(** Every slot that is written is one that is read. *)
Lemma chk_slot_numbers c : forallb (fun it => match it with WSlot i _ _ _ => (i <? List.length (sslots c))%nat | _ => true end) (swrites c) = true.
Proof. destruct c; vm_compute; reflexivity. Qed.

(** ** Finding an entry *)
Lemma distinct_app a b : distinct (a ++ b) = true -> distinct a = true /\ distinct b = true /\ forall x, In x a -> ~ In x b.
Proof.
  induction a as [|x a IH]; intros H; [split; [reflexivity|]; split; [exact H|]; intros ? []|]. cbn [app distinct] in *. apply andb_prop in H as (H1 & H2).
  destruct (IH H2) as (A & B & D). rewrite existsb_app in H1. apply negb_true_iff, orb_false_elim in H1 as (H1 & H3). rewrite H1, A. split; [reflexivity|].
  split; [exact B|]. intros y [<- |I]; [|exact (D y I)]. intros J. assert (existsb (eqb_bytes x) b = true); [|congruence].
  apply existsb_exists. exists x. split; [exact J|apply eqb_bytes_refl].
Qed.
Lemma get_attr_app a l m : get_attr a (l ++ m) = match get_attr a l with Some b => Some b | None => get_attr a m end.
Proof. induction l as [|(n, x) l IH]; [reflexivity|]. cbn [app get_attr]. destruct (eqb_bytes n a); [reflexivity|exact IH]. Qed.
Lemma get_attr_none a l : ~ In a (map fst l) -> get_attr a l = None.
Proof.
  induction l as [|(n, x) l IH]; intros H; [reflexivity|]. cbn [get_attr map fst] in *. destruct (eqb_bytes n a) eqn:E.
  - apply eqb_bytes_iff in E. subst. exfalso. apply H. now left.
  - apply IH. intros I. apply H. now right.
Qed.
Lemma out_attrs_names vs it : incl (map fst (out_attrs vs it)) (attr_names it).
Proof. destruct it; cbn [out_attrs]; try (intros ? []). destruct (written _ _); cbn [map fst attr_names]; [apply incl_refl|intros ? []]. Qed.
Lemma out_attrs_flat vs its : incl (map fst (flat_map (out_attrs vs) its)) (flat_map attr_names its).
Proof.
  induction its as [|it its IH]; [intros ? []|]. cbn [flat_map]. rewrite map_app. apply incl_app; [|apply incl_appr, IH].
  eapply incl_tran; [apply out_attrs_names|apply incl_appl, incl_refl].
Qed.
Lemma find_attr vs a its it : distinct (flat_map attr_names its) = true -> In it its -> In a (attr_names it) ->
  get_attr a (flat_map (out_attrs vs) its) = get_attr a (out_attrs vs it).
Proof.
  induction its as [|x its IH]; intros D I A; [destruct I|]. cbn [flat_map] in *. destruct (distinct_app _ _ D) as (_ & D2 & DJ). rewrite get_attr_app.
  destruct I as [-> |I].
  - destruct (get_attr a (out_attrs vs it)) eqn:E; [reflexivity|]. apply get_attr_none. intros J. apply (DJ a A). now apply (out_attrs_flat vs).
  - rewrite (get_attr_none a (out_attrs vs x)); [now apply IH|]. intros J. apply (DJ a).
    + now apply (out_attrs_names vs).
    + apply in_flat_map. eauto.
Qed.
Definition elem_names (l : list node) : list (list N) := flat_map (fun n => match n with Elem a _ _ => [a] | _ => [] end) l.
Lemma child_app a l m : child_named a (l ++ m) = match child_named a l with Some b => Some b | None => child_named a m end.
Proof. induction l as [|[n x y| | | | |] l IH]; try exact IH; [reflexivity|]. cbn [app child_named]. destruct (eqb_bytes n a); [reflexivity|exact IH]. Qed.
Lemma child_none a l : ~ In a (elem_names l) -> child_named a l = None.
Proof.
  induction l as [|[n x y| | | | |] l IH]; intros H; try (exact (IH H)); [reflexivity|]. cbn [child_named elem_names flat_map app] in *. destruct (eqb_bytes n a) eqn:E.
  - apply eqb_bytes_iff in E. subst. exfalso. apply H. now left.
  - apply IH. intros I. apply H. now right.
Qed.
(** The nodes of the children have the names of their classes. *)
Definition named_by (ss : list rslot) (kss : list (list sobj)) (nss : list (list node)) : Prop :=
  forall i s, nth_error ss i = Some s -> incl (elem_names (nth i nss [])) (map (fun k => sname (snd k)) (rs_kinds s)).
Section Find.
Variable (ss : list rslot) (vs : env) (kss : list (list sobj)) (nss : list (list node)).
Hypothesis NB : named_by ss kss nss.
Definition numbers (its : list witem) : Prop := forall i n e d, In (WSlot i n e d) its -> (i < List.length ss)%nat.
Lemma out_kids_names it : (forall i n e d, it = WSlot i n e d -> (i < List.length ss)%nat) -> incl (elem_names (out_kids vs kss nss it)) (kid_names ss it).
Proof.
  intros L. destruct it as [|n f k w|f k| |i [n|] e d]; cbn [out_kids kid_names]; try (intros ? []; fail).
  - destruct (written _ _); [apply incl_refl|intros ? []].
  - destruct (nth i kss []); [destruct e; [apply incl_refl|intros ? []]|apply incl_refl].
  - specialize (L i None e d eq_refl). destruct (nth_error ss i) as [s|] eqn:E; [|apply nth_error_None in E; lia].
    destruct (nth i kss []); [intros ? []|exact (NB i s E)].
Qed.
Lemma out_kids_flat its : numbers its -> incl (elem_names (flat_map (out_kids vs kss nss) its)) (flat_map (kid_names ss) its).
Proof.
  induction its as [|it its IH]; intros L; [intros ? []|]. cbn [flat_map]. unfold elem_names. rewrite flat_map_app. apply incl_app.
  - eapply incl_tran; [apply (out_kids_names it); intros i n e d ->; apply (L i n e d); now left|apply incl_appl, incl_refl].
  - apply incl_appr, IH. intros i n e d I. apply (L i n e d). now right.
Qed.
Lemma find_child a its it : numbers its -> distinct (flat_map (kid_names ss) its) = true -> In it its -> In a (kid_names ss it) ->
  child_named a (flat_map (out_kids vs kss nss) its) = child_named a (out_kids vs kss nss it).
Proof.
  induction its as [|x its IH]; intros L D I A; [destruct I|]. cbn [flat_map] in *. destruct (distinct_app _ _ D) as (_ & D2 & DJ). rewrite child_app.
  assert (L2 : numbers its) by (intros i n e d J; apply (L i n e d); now right).
  destruct I as [-> |I].
  - destruct (child_named a (out_kids vs kss nss it)) eqn:E; [reflexivity|]. apply child_none. intros J. apply (DJ a A). now apply (out_kids_flat its L2).
  - rewrite (child_none a (out_kids vs kss nss x)); [now apply IH|]. intros J. apply (DJ a).
    + apply (out_kids_names x); [intros i n e d ->; apply (L i n e d); now left|exact J].
    + apply in_flat_map. eauto.
Qed.
End Find.

(** ** Writing *)
Definition item_ok (vs : env) (kss : list (list sobj)) (it : witem) : Prop :=
  match it with
  | WAttr _ f k w | WNode _ f k w => written w (get f vs) = true -> exists s, swrite_conv k (get f vs) = Ok s /\ bytes_of s = Ok (enc k (get f vs))
  | WOwn f k => exists s, swrite_conv k (get f vs) = Ok s /\ bytes_of s = Ok (enc k (get f vs))
  | WCommand => exists s, command_text vs = Ok s /\ bytes_of s = Ok (enc_command vs)
  | WSlot i _ _ d => d = true -> nth i kss [] <> []
  end.
Lemma write_items_ok vs kss nss : forall its a0 k0, Forall (item_ok vs kss) its -> NoDup (flat_map attr_names its) ->
  (forall a, In a (flat_map attr_names its) -> ~ In a (map fst a0)) ->
  (existsb is_own its = true -> k0 = [] /\ (List.length (filter produces its) <= 1)%nat) ->
  write_items vs kss nss its (a0, k0) = Ok (a0 ++ flat_map (out_attrs vs) its, k0 ++ flat_map (out_kids vs kss nss) its).
Proof.
  induction its as [|it its IH]; intros a0 k0 F ND DJ OW. { cbn [write_items flat_map]. now rewrite !app_nil_r. }
  inversion F as [|? ? F1 F2]; subst. cbn [write_items flat_map].
  assert (ND2 : NoDup (flat_map attr_names its)).
  { cbn [flat_map] in ND. clear -ND. induction (attr_names it) as [|x l IHl]; [exact ND|]. cbn [app] in ND. inversion ND; subst. auto. }
  assert (NoOwn : is_own it = true -> existsb is_own its = false /\ k0 = [] /\ forall x, In x its -> produces x = false).
  { intros O. cbn [existsb] in OW. rewrite O in OW. destruct (OW eq_refl) as (K & L). cbn [filter] in L.
    assert (P : produces it = true) by (destruct it; try discriminate O; reflexivity). rewrite P in L. cbn [List.length] in L.
    assert (Z : filter produces its = []) by (destruct (filter produces its); [reflexivity|cbn [List.length] in L; lia]).
    assert (Q : forall x, In x its -> produces x = false).
    { intros x I. destruct (produces x) eqn:E; [|reflexivity]. assert (J : In x (filter produces its)) by (apply filter_In; now split). rewrite Z in J. destruct J. }
    split; [|auto]. destruct (existsb is_own its) eqn:E; [|reflexivity]. apply existsb_exists in E as (x & I & Ex). specialize (Q x I). destruct x; discriminate. }
  assert (REST : forall a1 k1, (forall a, In a (flat_map attr_names its) -> ~ In a (map fst a1)) -> (produces it = false -> k1 = k0) ->
    write_items vs kss nss its (a1, k1) = Ok (a1 ++ flat_map (out_attrs vs) its, k1 ++ flat_map (out_kids vs kss nss) its)).
  { intros a1 k1 D1 K1. apply IH; [exact F2|exact ND2|exact D1|]. intros O. cbn [existsb] in OW. rewrite O, orb_true_r in OW. destruct (OW eq_refl) as (K & L).
    cbn [filter] in L. destruct (produces it) eqn:P; [|now split; [rewrite K1|]]. exfalso. cbn [List.length] in L.
    assert (Z : filter produces its = []) by (destruct (filter produces its); [reflexivity|cbn [List.length] in L; lia]).
    apply existsb_exists in O as (x & I & Ex). assert (J : In x (filter produces its)) by (apply filter_In; split; [exact I|destruct x; try discriminate Ex; reflexivity]).
    rewrite Z in J. destruct J. }
  assert (DJ2 : forall a, In a (flat_map attr_names its) -> ~ In a (map fst a0)) by (intros a I; apply DJ; cbn [flat_map]; apply in_or_app; now right).
  destruct it as [a f k w|n f k w|f k| |i container e d]; cbn [write_item item_ok out_attrs out_kids app] in *.
  - destruct (written w (get f vs)).
    + destruct (F1 eq_refl) as (s & -> & B). cbn [bind]. rewrite B. cbn [bind]. rewrite set_attr_new by (apply DJ; cbn [flat_map attr_names app]; now left).
      rewrite REST; [now rewrite <- app_assoc| |reflexivity]. intros x I. rewrite map_app. intros J. apply in_app_or in J as [J|[<- |[]]]; [exact (DJ2 x I J)|].
      cbn [flat_map attr_names app] in ND. inversion ND; subst. contradiction.
    + cbn [bind app]. now apply REST.
  - destruct (written w (get f vs)).
    + destruct (F1 eq_refl) as (s & -> & B). cbn [bind]. rewrite B. cbn [bind]. rewrite REST; [now rewrite <- app_assoc|exact DJ2|discriminate].
    + cbn [bind app]. apply REST; [exact DJ2|reflexivity].
  - destruct F1 as (s & -> & B). cbn [bind]. rewrite B. cbn [bind]. destruct (NoOwn eq_refl) as (_ & -> & _). cbn [set_text]. now apply REST.
  - destruct F1 as (s & -> & B). cbn [bind]. rewrite B. cbn [bind]. destruct (NoOwn eq_refl) as (_ & -> & _). cbn [set_text]. now apply REST.
  - destruct (nth i kss []) as [|o l]; [destruct d; [now destruct (F1 eq_refl)|]|].
    + destruct container as [n|]; cbn [bind]; [destruct e|]; (rewrite REST; [now rewrite <- ?app_assoc|exact DJ2|discriminate]).
    + destruct container as [n|]; cbn [bind]; (rewrite REST; [now rewrite <- ?app_assoc|exact DJ2|discriminate]).
Qed.

(** ** Members *)
Lemma enc_ok k v : simple k = true -> sval_ok k v ->
  exists s, swrite_conv k v = Ok s /\ good s /\ bytes_of s = Ok (enc k v) /\ text_of (enc k v) = Ok s /\
    forall old, exists v', sread_conv k old s = Ok v' /\ same_val v v'.
Proof.
  intros S V. destruct (sconv_roundtrip k v VUnset S V) as (s & v' & W & G & _). destruct (good_bytes s G) as (b & B & Tx).
  exists s. unfold enc. rewrite W, B. split; [reflexivity|]. split; [exact G|]. split; [reflexivity|]. split; [exact Tx|]. intros old.
  destruct (sconv_roundtrip k v old S V) as (s2 & v2 & W2 & _ & R & Sm). rewrite W in W2. apply Ok_inj in W2. subst s2. eauto.
Qed.
Lemma enc_command_ok vs : command_ok vs -> exists s, command_text vs = Ok s /\ good s /\ bytes_of s = Ok (enc_command vs) /\ text_of (enc_command vs) = Ok s.
Proof.
  intros C. destruct (command_roundtrip vs [] C) as (t & vs' & W & G & _). destruct (good_bytes t G) as (b & B & Tx). exists t. unfold enc_command. rewrite W, B. auto.
Qed.
Lemma entry_in c it : In it (swrites c) -> forall f k w, In (f, k, w) (entry it) -> In (f, k, w) (flat_map entry (swrites c)) /\ simple k = true.
Proof.
  intros I f k w E. split; [apply in_flat_map; eauto|]. pose proof (chk_items c) as C. rewrite !andb_true_iff in C. destruct C as ((((_ & _) & C) & _) & _).
  rewrite forallb_forall in C. specialize (C it I). unfold w_simple in C. rewrite forallb_forall in C. exact (C _ E).
Qed.
Section Members.
Variable (c : scls) (vs : env) (kss : list (list sobj)) (nss : list (list node)).
Hypothesis M : members_ok c vs.
Hypothesis DR : c = SMapDef -> nth 0 kss [] <> [].
Lemma slot_chk_nth : forall ss i j s, slots_chk c i ss -> nth_error ss j = Some s -> slot_chk c (i + j) s.
Proof.
  induction ss as [|x ss IH]; intros i [|j] s C E; try discriminate E; destruct C as (C1 & C2).
  - injection E as <-. now rewrite Nat.add_0_r.
  - replace (i + S j)%nat with (S i + j)%nat by lia. exact (IH (S i) j s C2 E).
Qed.
Lemma slot_of i s : nth_error (sslots c) i = Some s -> slot_chk c i s.
Proof. intros E. exact (slot_chk_nth _ 0 i s (chk_slots c) E). Qed.
Lemma deref_only i n e : In (WSlot i n e true) (swrites c) -> c = SMapDef /\ i = O.
Proof. clear. destruct c; cbn; intros I; repeat destruct I as [I|I]; try discriminate I; try contradiction I; injection I as <- <- <-; auto. Qed.
Lemma items_ok : Forall (item_ok vs kss) (swrites c).
Proof.
  apply Forall_forall. intros it I. destruct M as (M1 & M2 & _).
  assert (E : forall f k w, In (f, k, w) (entry it) -> exists s, swrite_conv k (get f vs) = Ok s /\ bytes_of s = Ok (enc k (get f vs))).
  { intros f k w E. destruct (entry_in c it I f k w E) as (J & S). destruct (M1 f k w J) as (V & _). destruct (enc_ok k _ S V) as (s & W & _ & B & _). eauto. }
  destruct it as [a f k w|n f k w|f k| |i container e d]; cbn [item_ok entry] in *.
  - intros _. apply (E f k w). now left.
  - intros _. apply (E f k w). now left.
  - apply (E f k WAlways). now left.
  - destruct (enc_command_ok vs (M2 I)) as (s & W & _ & B & _). eauto.
  - intros ->. destruct (deref_only i container e I) as (-> & ->). now apply DR.
Qed.
Definition the_attrs : list (list N * list N) := flat_map (out_attrs vs) (swrites c).
Definition the_kids : list node := flat_map (out_kids vs kss nss) (swrites c).
Lemma written_items : write_items vs kss nss (swrites c) ([], []) = Ok (the_attrs, the_kids).
Proof.
  pose proof (chk_items c) as C. rewrite !andb_true_iff in C. destruct C as ((((D & _) & _) & _) & O).
  rewrite (write_items_ok vs kss nss (swrites c) [] []); [reflexivity|exact items_ok|now apply distinct_nodup|intros a _ []|].
  intros E. split; [reflexivity|]. rewrite E in O. cbn [negb orb] in O. apply Nat.eqb_eq in O. lia.
Qed.

(** An entry that is not written stands for what the constructor sets. *)
Lemma not_written f k w : In (f, k, w) (flat_map entry (swrites c)) -> when_chk c f k w -> written w (get f vs) = false -> get f vs = get f (sfields c).
Proof.
  intros I C W. destruct M as (M1 & _). destruct (M1 f k w I) as (V & MX). unfold when_chk in C.
  destruct w; cbn [default_of] in C; cbn [written] in W.
  - discriminate W.
  - rewrite C. destruct (get f vs) as [[|]| | | | | | | | | | | | |]; try discriminate W. reflexivity.
  - rewrite C. destruct (get f vs) as [| | |[|]| | | | | | | | | |]; try discriminate W. reflexivity.
  - subst k. destruct (get f vs); try discriminate W. contradiction V.
  - rewrite C. exact (MX eq_refl W).
Qed.
Hypothesis NB : named_by (sslots c) kss nss.
Lemma nums : numbers (sslots c) (swrites c).
Proof. intros i n e d I. pose proof (chk_slot_numbers c) as C. rewrite forallb_forall in C. specialize (C _ I). cbv beta iota in C. now apply Nat.ltb_lt in C. Qed.
Lemma only_kid it : In it (swrites c) -> is_own it = true -> the_kids = out_kids vs kss nss it.
Proof.
  intros I O. pose proof (chk_items c) as C. rewrite !andb_true_iff in C. destruct C as (_ & C).
  assert (E : existsb is_own (swrites c) = true) by (apply existsb_exists; eauto). rewrite E in C. cbn [negb orb] in C. apply Nat.eqb_eq in C.
  unfold the_kids. assert (P : produces it = true) by (destruct it; try discriminate O; reflexivity). clear E O. revert I C.
  induction (swrites c) as [|x l IH]; intros I C; [destruct I|]. cbn [flat_map filter] in *. destruct (produces x) eqn:Px.
  - cbn [List.length] in C. assert (Z : filter produces l = []) by (destruct (filter produces l); [reflexivity|cbn [List.length] in C; lia]).
    assert (Q : forall y, In y l -> produces y = false).
    { intros y J. destruct (produces y) eqn:Py; [|reflexivity]. assert (K : In y (filter produces l)) by (apply filter_In; now split). rewrite Z in K. destruct K. }
    destruct I as [-> |I]; [|rewrite (Q _ I) in P; discriminate]. assert (R : flat_map (out_kids vs kss nss) l = []); [|now rewrite R, app_nil_r].
    clear -Q. induction l as [|y l IHl]; [reflexivity|]. cbn [flat_map]. rewrite IHl by (intros z J; apply Q; now right).
    specialize (Q y ltac:(now left)). destruct y; try discriminate Q. reflexivity.
  - destruct I as [-> |I]; [congruence|]. destruct x; try discriminate Px. cbn [out_kids app]. exact (IH I C).
Qed.
Lemma mem1 g f : mem g [f] = String.eqb g f. Proof. unfold mem. cbn [existsb]. apply orb_false_r. Qed.
Definition item_reads (r : ritem) : Prop := forall v0, (forall g, In g (r_fields r) -> get g v0 = get g (sfields c)) ->
  exists v1, read_item the_attrs the_kids r v0 = Ok v1 /\
    forall g, if mem g (r_fields r) then same_val (get g vs) (get g v1) else get g v1 = get g v0.
Lemma converts f k v0 s v' : sread_conv k (get f v0) s = Ok v' -> same_val (get f vs) v' ->
  exists v1, (do v <- sread_conv k (get f v0) s; Ok (put f v v0)) = Ok v1 /\ forall g, if mem g [f] then same_val (get g vs) (get g v1) else get g v1 = get g v0.
Proof.
  intros R S. rewrite R. cbn [bind]. eexists. split; [reflexivity|]. intros g. rewrite get_put, mem1. destruct (String.eqb g f) eqn:E; [|reflexivity].
  apply String.eqb_eq in E. now subst.
Qed.
Lemma leaves f v0 : get f v0 = get f (sfields c) -> get f vs = get f (sfields c) ->
  exists v1, Ok v0 = Ok v1 /\ forall g, if mem g [f] then same_val (get g vs) (get g v1) else get g v1 = get g v0.
Proof.
  intros E1 E2. exists v0. split; [reflexivity|]. intros g. rewrite mem1. destruct (String.eqb g f) eqn:E; [|reflexivity]. apply String.eqb_eq in E. subst g. left. congruence.
Qed.
Lemma reads_back r : In r (sreads c) -> item_reads r.
Proof.
  intros I v0 V0. pose proof (Each_in _ _ _ (chk_reads c) I) as C. pose proof (chk_items c) as K. rewrite !andb_true_iff in K. destruct K as ((((D1 & D2) & _) & _) & _).
  destruct M as (M1 & M2 & _).
  destruct r as [a f k|n f k|f k| ]; cbn [read_chk read_item r_fields] in *.
  - destruct (find (attr_is a) (swrites c)) as [[a' f' k' w| | | | ]|] eqn:F; try contradiction. destruct C as (-> & -> & -> & C & CE).
    apply find_some in F as (F & _). destruct (entry_in c _ F f k w ltac:(now left)) as (J & S). destruct (M1 f k w J) as (V & _).
    assert (A : get_attr a the_attrs = if written w (get f vs) then Some (enc k (get f vs)) else None).
    { unfold the_attrs. rewrite (find_attr vs a (swrites c) _ D1 F) by (now left). cbn [out_attrs]. destruct (written w (get f vs)); [|reflexivity].
      cbn [get_attr]. now rewrite eqb_bytes_refl. }
    unfold attr_text. rewrite A. destruct (written w (get f vs)) eqn:W.
    + destruct (enc_ok k _ S V) as (s & _ & _ & _ & -> & R). cbn [bind]. destruct (R (get f v0)) as (v' & R1 & R2). exact (converts f k v0 s v' R1 R2).
    + pose proof (not_written f k w J C W) as E. cbn [bind]. destruct w; try discriminate W.
      * cbn [default_of] in CE. cbn [written] in W. assert (GE : get f vs = VTxt []) by (destruct (get f vs) as [[|]| | | | | | | | | | | | |]; try discriminate W; reflexivity).
        destruct k as [[]| | | | | |]; try contradiction CE.
        -- apply leaves; [apply V0; now left|exact E].
        -- apply (converts f SMulti v0 [] (VTxt [])); [reflexivity|left; exact GE].
      * cbn [default_of] in CE. cbn [written] in W. assert (GE : get f vs = VNat 0) by (destruct (get f vs) as [| | |[|]| | | | | | | | | |]; try discriminate W; reflexivity).
        rewrite GE in V. destruct k as [[]| | | | | |]; contradiction.
      * cbn [written] in W. unfold when_chk in C. cbn [default_of] in C. subst k. destruct (get f vs); try discriminate W. contradiction V.
      * cbn [default_of] in CE. cbn [written] in W. destruct (get f vs); try discriminate W. destruct k as [[]| | | | | |]; contradiction.
  - destruct (find (node_is n) (swrites c)) as [[ |n' f' k' w| | | ]|] eqn:F; try contradiction. destruct C as (-> & -> & -> & C).
    apply find_some in F as (F & _). destruct (entry_in c _ F f k w ltac:(now left)) as (J & S). destruct (M1 f k w J) as (V & _).
    unfold the_kids. rewrite (find_child _ _ _ _ NB n (swrites c) _ nums D2 F) by (now left). cbn [out_kids]. destruct (written w (get f vs)) eqn:W.
    + unfold text_node. cbn [child_named]. rewrite eqb_bytes_refl. unfold node_text. cbn [get_text].
      destruct (enc_ok k _ S V) as (s & _ & _ & _ & -> & R). cbn [bind]. destruct (R (get f v0)) as (v' & R1 & R2). exact (converts f k v0 s v' R1 R2).
    + cbn [child_named]. apply leaves; [apply V0; now left|]. exact (not_written f k w J C W).
  - destruct (find is_own (swrites c)) as [[ | |f' k'| | ]|] eqn:F; try contradiction. destruct C as (-> & ->). apply find_some in F as (F & O).
    destruct (entry_in c _ F f k WAlways ltac:(now left)) as (J & S). destruct (M1 f k WAlways J) as (V & _).
    rewrite (only_kid _ F O). cbn [out_kids]. unfold node_text. cbn [get_text].
    destruct (enc_ok k _ S V) as (s & _ & _ & _ & -> & R). cbn [bind]. destruct (R (get f v0)) as (v' & R1 & R2). exact (converts f k v0 s v' R1 R2).
  - destruct (find is_own (swrites c)) as [[ | | | | ]|] eqn:F; try contradiction. apply find_some in F as (F & O).
    rewrite (only_kid _ F O). cbn [out_kids]. unfold node_text. cbn [get_text]. destruct (enc_command_ok vs (M2 F)) as (s & W & _ & _ & ->). cbn [bind].
    destruct (command_roundtrip vs v0 (M2 F)) as (t & v1 & W2 & _ & R & G). rewrite W in W2. apply Ok_inj in W2. subst t. exists v1. split; [exact R|].
    intros g. specialize (G g). unfold mem. cbn [existsb]. rewrite orb_false_r, orb_assoc.
    destruct (String.eqb g "fValue" || String.eqb g "fChannelFunction" || String.eqb g "fIsPercentage") eqn:E; [exact G|].
    assert (N : forall x, String.eqb g "fValue" || String.eqb g "fChannelFunction" || String.eqb g "fIsPercentage" = true -> x) by (rewrite E; discriminate).
    clear -R E. unfold read_command in R. destruct (match tx_find s T"/percent" 0 false with Some p => _ | None => _ end) as (percent, ff).
    destruct (atof point _) as [x| | |] in R; try discriminate R. cbn [bind] in R. apply Ok_inj in R. subst v1. rewrite !get_put.
    destruct (String.eqb g "fValue"), (String.eqb g "fChannelFunction"), (String.eqb g "fIsPercentage"); try discriminate E. reflexivity.
Qed.
Lemma different_app a b : different (a ++ b) = true -> different b = true /\ forall x, mem x a = true -> mem x b = false.
Proof.
  induction a as [|x a IH]; intros H; [split; [exact H|]; intros x E; discriminate E|]. cbn [app different] in H. apply andb_prop in H as (H1 & H2).
  destruct (IH H2) as (A & B). split; [exact A|]. intros y E. unfold mem in *. rewrite existsb_app in H1. apply negb_true_iff, orb_false_elim in H1 as (_ & H1).
  cbn [existsb] in E. apply orb_prop in E as [E|E]; [|exact (B y E)]. apply String.eqb_eq in E. now subst.
Qed.
Lemma read_list : forall its v0, (forall r, In r its -> item_reads r) -> different (flat_map r_fields its) = true ->
  (forall g, In g (flat_map r_fields its) -> get g v0 = get g (sfields c)) ->
  exists v1, read_items the_attrs the_kids its v0 = Ok v1 /\
    forall g, if mem g (flat_map r_fields its) then same_val (get g vs) (get g v1) else get g v1 = get g v0.
Proof.
  induction its as [|r its IH]; intros v0 R D V0; [exists v0; split; [reflexivity|intros g; reflexivity]|].
  cbn [flat_map] in *. destruct (different_app _ _ D) as (D2 & DJ).
  destruct (R r ltac:(now left) v0) as (v1 & E1 & S1). { intros g I. apply V0, in_or_app. now left. }
  destruct (IH v1) as (v2 & E2 & S2).
  - intros x I. apply R. now right.
  - exact D2.
  - intros g I. specialize (S1 g). destruct (mem g (r_fields r)) eqn:E; [|rewrite S1; apply V0, in_or_app; now right].
    apply DJ in E. apply mem_in in I. congruence.
  - exists v2. cbn [read_items]. rewrite E1. cbn [bind]. split; [exact E2|]. intros g. specialize (S1 g). specialize (S2 g). unfold mem. rewrite existsb_app.
    fold (mem g (r_fields r)) (mem g (flat_map r_fields its)). destruct (mem g (r_fields r)) eqn:E; cbn [orb].
    + rewrite (DJ g E) in S2. now rewrite S2.
    + destruct (mem g (flat_map r_fields its)); [exact S2|congruence].
Qed.
Lemma get_absent g (e : env) : ~ In g (map fst e) -> get g e = VUnset.
Proof.
  induction e as [|(k, x) e IH]; intros H; [reflexivity|]. cbn [get map fst] in *. destruct (String.eqb g k) eqn:E; [|apply IH; intros I; apply H; now right].
  apply String.eqb_eq in E. subst. exfalso. apply H. now left.
Qed.
Lemma members_back : exists v1, read_items the_attrs the_kids (sreads c) (sfields c) = Ok v1 /\ same_env vs v1.
Proof.
  pose proof (chk_fields c) as C. apply andb_prop in C as (C1 & C2).
  destruct (read_list (sreads c) (sfields c)) as (v1 & E & S); [exact reads_back|exact C1|reflexivity|]. exists v1. split; [exact E|]. intros g. specialize (S g).
  destruct (mem g (flat_map r_fields (sreads c))) eqn:G; [exact S|]. rewrite S. left.
  assert (NI : ~ In g (map fst (sfields c))).
  { intros I. apply in_map_iff in I as (p & <- & I). rewrite forallb_forall in C2. specialize (C2 p I). cbv beta in C2. congruence. }
  destruct M as (_ & _ & M3). rewrite (M3 g NI), get_absent by exact NI. reflexivity.
Qed.
End Members.

(** ** Children *)
(** A child, its node, and what is read from it. *)
Record skid := mkSkid { sk_obj : sobj; sk_node : node; sk_back : sobj }.
Definition uuid_entry (c : scls) : Prop := find (attr_is T"uuid") (swrites c) = Some (WAttr T"uuid" "fGuid" SGuid WIfGuid).
Definition reads_as (k : skid) : Prop :=
  (exists a ks, sk_node k = Elem (sname (sclass (sk_obj k))) a ks) /\ same_sobj (sk_obj k) (sk_back k) /\
  (uuid_entry (sclass (sk_obj k)) -> has_uuid (sk_node k) = true /\ key_of (sk_node k) = Ok (guid_text (sk_obj k))) /\
  forall d, (depth (sk_node k) <= d)%nat -> read_sobj d (sclass (sk_obj k)) (sk_node k) = Ok (sk_back k).
Definition no_gobo (o : sobj) : Prop := sclass o = SGobo /\ same_sobj o (sfresh SGobo).
Definition wrote (o : sobj) (ns : list node) : Prop :=
  ns = [] /\ no_gobo o \/ exists k, sk_obj k = o /\ ns = [sk_node k] /\ reads_as k.
Definition wrote_list (ks : list sobj) (ns : list node) : Prop :=
  (exists o, ks = [o] /\ ns = [] /\ no_gobo o) \/ exists l, map sk_obj l = ks /\ map sk_node l = ns /\ Forall reads_as l.
Lemma wrote_all s ks : in_rslot s ks ->
  Each (fun k : string * scls => match snd k with SGobo => rs_mode s = ROne | _ => True end) (rs_kinds s) ->
  Forall (fun o => exists ns, write_sobj o = Ok ns /\ wrote o ns) ks -> exists ns, write_sobjs ks = Ok ns /\ wrote_list ks ns.
Proof.
  intros (K & L) G F.
  assert (D : (rs_mode s = ROne /\ exists o, ks = [o]) \/ Forall (fun o => sclass o <> SGobo) ks).
  { destruct (rs_mode s) eqn:E; try (right; apply Forall_forall; intros o I Go; rewrite Forall_forall in K; specialize (K o I); apply in_map_iff in K as ((x, y) & E2 & J);
      pose proof (Each_in _ _ _ G J) as Q; cbn [snd] in *; rewrite Go in E2; subst y; discriminate Q). left. split; [reflexivity|]. destruct ks as [|o [|]]; try discriminate L. eauto. }
  destruct D as [(_ & o & ->) |D].
  - inversion F as [|? ? (ns & W & H) _]; subst. cbn [write_sobjs]. rewrite W. cbn [bind]. rewrite app_nil_r. exists ns. split; [reflexivity|].
    destruct H as [(-> & H) |(k & <- & -> & R)]; [left; eauto|right]. exists [k]. auto.
  - clear K L G. induction F as [|o ks (ns & W & H) F IH]; [exists []; split; [reflexivity|]; right; exists []; auto|]. inversion D as [|? ? D1 D2]; subst.
    destruct (IH D2) as (ms & E & Q). cbn [write_sobjs]. rewrite W. cbn [bind]. rewrite E. cbn [bind]. eexists. split; [reflexivity|]. right.
    destruct H as [(_ & H & _) |(k & <- & -> & R)]; [contradiction|]. destruct Q as [(o & -> & _ & Go & _) |(l & <- & <- & Q)].
    + inversion D2; subst. contradiction.
    + exists (k :: l). cbn [map app]. auto.
Qed.
Definition take (rd : scls -> node -> res sobj) (s : rslot) (kids : list node) : res (list sobj) :=
  match rs_mode s with
  | RAll => do els <- elements kids; read_kinds rd false (rs_kinds s) els
  | RAllUuid => do els <- elements kids; read_kinds rd true (rs_kinds s) els
  | ROpt | ROne => read_first rd (rs_kinds s) kids
  end.
Definition fill (s : rslot) (l : list sobj) : list sobj := match rs_mode s, l, rs_kinds s with ROne, [], (_, c) :: _ => [sfresh c] | _, _, _ => l end.
Lemma sread_slot_eq rd s kids : sread_slot rd s kids =
  do l <- match rs_container s with None => take rd s kids | Some n => match child_named n kids with Some (Elem _ _ ks) => take rd s ks | _ => Ok [] end end; Ok (fill s l).
Proof. reflexivity. Qed.
Definition sel (k : skid) : list N * node := (sname (sclass (sk_obj k)), sk_node k).
Lemma selements l : Forall reads_as l -> elements (map sk_node l) = Ok (map sel l).
Proof.
  induction 1 as [|k l ((a & ks & E) & _) F IH]; [reflexivity|]. cbn [map]. unfold sel at 1. rewrite E. cbn [elements].
  rewrite (ascii_text _ (sname_ascii _)), IH. cbn [bind]. reflexivity.
Qed.
Definition kind_chk (s : rslot) (k : string * scls) : Prop := skind_of (rs_kinds s) (sname (snd k)) = Some (snd k) /\ match snd k with SGobo => rs_mode s = ROne | _ => True end
    /\ (rs_mode s = RAllUuid -> uuid_entry (snd k)).
Lemma kinds_back rd s u l : Each (kind_chk s) (rs_kinds s) -> (u = true -> rs_mode s = RAllUuid) ->
  Forall (fun k => In (sclass (sk_obj k)) (map snd (rs_kinds s))) l ->
  Forall reads_as l -> Forall (fun k => rd (sclass (sk_obj k)) (sk_node k) = Ok (sk_back k)) l -> read_kinds rd u (rs_kinds s) (map sel l) = Ok (map sk_back l).
Proof.
  intros C U K R D. induction R as [|k l (_ & _ & HU & _) R IH]; [reflexivity|]. inversion K as [|? ? K1 K2]; inversion D as [|? ? D1 D2]; subst.
  cbn [map]. unfold sel at 1. cbn [read_kinds]. apply in_map_iff in K1 as (p & E & I). destruct (Each_in _ _ _ C I) as (SK & _ & UU). rewrite E in SK, UU. rewrite SK.
  assert (Z : u && negb (has_uuid (sk_node k)) = false) by (destruct u; [rewrite (proj1 (HU (UU (U eq_refl))))|]; reflexivity).
  rewrite Z, D1. cbn [bind]. rewrite (IH K2 D2). reflexivity.
Qed.
Lemma same_back l : Forall reads_as l -> Forall2 same_sobj (map sk_obj l) (map sk_back l).
Proof. induction 1 as [|k l (_ & S & _) F IH]; cbn [map]; constructor; assumption. Qed.
Lemma take_back s c i ks ns kids : slot_chk c i s -> in_rslot s ks -> wrote_list ks ns ->
  (match rs_mode s with RAll | RAllUuid => kids = ns | _ => forall n k, rs_kinds s = [(n, k)] -> child_named (txt n) kids = child_named (txt n) ns end) ->
  exists os, (forall d, Forall (fun n => (depth n <= d)%nat) ns -> take (read_sobj d) s kids = Ok os) /\ Forall2 same_sobj ks (fill s os).
Proof.
  intros (_ & C & K) (I1 & I2) W E.
  assert (ALL : forall u, (u = true -> rs_mode s = RAllUuid) -> rs_mode s = RAll \/ rs_mode s = RAllUuid -> kids = ns ->
    exists os, (forall d, Forall (fun n => (depth n <= d)%nat) ns -> (do els <- elements kids; read_kinds (read_sobj d) u (rs_kinds s) els) = Ok os) /\ Forall2 same_sobj ks (fill s os)).
  { intros u U RM ->. destruct W as [(o & -> & _ & Go & _) |(l & <- & <- & R)].
    - exfalso. inversion I1 as [|? ? I3 _]; subst. apply in_map_iff in I3 as (p & E2 & J). destruct (Each_in _ _ _ C J) as (_ & Q & _). rewrite E2, Go in Q. destruct RM; congruence.
    - rewrite (selements l R). cbn [bind]. exists (map sk_back l). split.
      + intros d D. apply kinds_back; [exact C|exact U| |exact R|].
        * clear -I1. rewrite Forall_map in I1. exact I1.
        * rewrite Forall_map in D. clear -R D. induction R as [|k l (_ & _ & _ & H) R IH]; inversion D; subst; constructor; auto.
      + unfold fill. destruct RM as [-> | ->]; now apply same_back. }
  assert (ONE : rs_mode s = ROpt \/ rs_mode s = ROne -> (forall n k, rs_kinds s = [(n, k)] -> child_named (txt n) kids = child_named (txt n) ns) ->
    exists os, (forall d, Forall (fun n => (depth n <= d)%nat) ns -> read_first (read_sobj d) (rs_kinds s) kids = Ok os) /\ Forall2 same_sobj ks (fill s os)).
  { intros RM EE. assert (K' : match rs_kinds s with [(n, k)] => txt n = sname k | _ => False end) by (destruct RM as [Q|Q]; rewrite Q in K; exact K).
    assert (L : (List.length ks <= 1)%nat) by (destruct RM as [Q|Q]; rewrite Q in I2; lia).
    destruct (rs_kinds s) as [|(n, k) [|]] eqn:RK; try contradiction. unfold read_first. rewrite (EE n k eq_refl). unfold fill. rewrite RK.
    destruct W as [(o & -> & -> & Go & So) |(l & <- & <- & R)].
    - cbn [child_named]. exists []. split; [reflexivity|]. inversion I1 as [|? ? I3 _]; subst. cbn [map snd] in I3. destruct I3 as [I3|[]].
      destruct C as ((_ & CG & _) & _). cbn [snd] in CG. rewrite I3, Go in CG. rewrite CG. constructor; [|constructor]. rewrite I3, Go. exact So.
    - destruct l as [|x [|]]; [| |cbn [map List.length] in L; lia].
      + cbn [map child_named]. exists []. split; [reflexivity|]. destruct RM as [Q|Q]; rewrite Q in *; [constructor|discriminate I2].
      + cbn [map] in *. inversion R as [|? ? ((a & kk & N) & S & _ & H) _]; inversion I1 as [|? ? I3 _]; subst. cbn [map snd] in I3. destruct I3 as [I3|[]].
        assert (CH : child_named (txt n) [sk_node x] = Some (sk_node x)) by (rewrite N; cbn [child_named]; now rewrite K', I3, eqb_bytes_refl).
        rewrite CH. exists [sk_back x]. split; [intros d D; rewrite I3, (H d) by (inversion D; assumption); reflexivity|].
        destruct RM as [Q|Q]; rewrite Q; constructor; auto. }
  unfold take. destruct (rs_mode s) eqn:RM.
  - apply ALL; [discriminate|now left|exact E].
  - apply ALL; [reflexivity|now right|exact E].
  - apply ONE; [now left|exact E].
  - apply ONE; [now right|exact E].
Qed.
Lemma wrote_nil ns : wrote_list [] ns -> ns = [].
Proof. intros [(o & E & _) |(l & E & <- & _)]; [discriminate E|]. now destruct l. Qed.
Section Slots.
Variable (c : scls) (vs : env) (kss : list (list sobj)) (nss : list (list node)).
Hypothesis NB : named_by (sslots c) kss nss.
Lemma only_item it : filter produces (swrites c) = [it] -> the_kids c vs kss nss = out_kids vs kss nss it.
Proof.
  intros F. unfold the_kids. revert F. induction (swrites c) as [|x l IH]; intros F; [discriminate F|]. cbn [flat_map filter] in *. destruct (produces x) eqn:P.
  - injection F as -> Z. assert (R : flat_map (out_kids vs kss nss) l = []); [|now rewrite R, app_nil_r].
    clear -Z. induction l as [|y l IHl]; [reflexivity|]. cbn [flat_map filter] in *. destruct y; try discriminate Z. exact (IHl Z).
  - destruct x; try discriminate P. exact (IH F).
Qed.
Lemma in_max (l : list node) n : In n l -> (depth n <= fold_right Nat.max O (map depth l))%nat.
Proof. induction l as [|x l IH]; intros []; cbn [map fold_right]; [subst; lia|]. specialize (IH H). lia. Qed.
Lemma slot_depth i co e d : In (WSlot i co e d) (swrites c) -> wrote_list (nth i kss []) (nth i nss []) ->
  Forall (fun n => (depth n <= fold_right Nat.max O (map depth (the_kids c vs kss nss)))%nat) (nth i nss []).
Proof.
  intros I W. apply Forall_forall. intros n J. destruct (nth i kss []) as [|o l] eqn:E. { apply wrote_nil in W. rewrite W in J. destruct J. }
  assert (Q : incl (match co with Some n => [Elem n [] (nth i nss [])] | None => nth i nss [] end) (the_kids c vs kss nss)).
  { intros x Hx. unfold the_kids. apply in_flat_map. eexists. split; [exact I|]. cbn [out_kids]. rewrite E. destruct co; exact Hx. }
  destruct co as [m|]; [|apply in_max, Q, J].
  assert (H1 := in_max _ _ (Q _ (or_introl eq_refl))). cbn [depth] in H1. assert (H2 := in_max _ _ J). lia.
Qed.
Definition deep (d : nat) : Prop := (fold_right Nat.max O (map depth (the_kids c vs kss nss)) <= d)%nat.
Lemma slot_back i s : nth_error (sslots c) i = Some s -> in_rslot s (nth i kss []) -> wrote_list (nth i kss []) (nth i nss []) ->
  exists os, (forall d, deep d -> sread_slot (read_sobj d) s (the_kids c vs kss nss) = Ok os) /\ Forall2 same_sobj (nth i kss []) os.
Proof.
  intros N IN W. pose proof (slot_of c i s N) as C. pose proof C as (F & C2).
  destruct (find (slot_is i) (swrites c)) as [[ | | | |j co e dr]|] eqn:FI; try contradiction. destruct F as (-> & -> & _ & ON).
  apply find_some in FI as (FI & _). pose proof (slot_depth _ _ _ _ FI W) as SD.
  assert (DD : forall d, deep d -> Forall (fun n => (depth n <= d)%nat) (nth i nss [])) by (intros d D; unfold deep in D; eapply Forall_impl; [|exact SD]; cbv beta; intros; lia).
  pose proof (chk_items c) as K. rewrite !andb_true_iff in K. destruct K as ((((_ & D2) & _) & _) & _).
  setoid_rewrite sread_slot_eq.
  assert (TK : forall kids, (match rs_mode s with RAll | RAllUuid => kids = nth i nss [] | _ => forall n k, rs_kinds s = [(n, k)] -> child_named (txt n) kids = child_named (txt n) (nth i nss []) end) ->
    exists os, (forall d, deep d -> (do l <- take (read_sobj d) s kids; Ok (fill s l)) = Ok os) /\ Forall2 same_sobj (nth i kss []) os).
  { intros kids H. destruct (take_back s c i _ _ kids C IN W H) as (os & E1 & E2). exists (fill s os). split; [|exact E2]. intros d D. rewrite (E1 d (DD d D)). reflexivity. }
  destruct (rs_container s) as [m|] eqn:RC.
  - unfold the_kids at 1. rewrite (find_child _ _ _ _ NB m (swrites c) _ (nums c) D2 FI) by (now left). cbn [out_kids]. destruct (nth i kss []) as [|o l] eqn:EK.
    + pose proof (wrote_nil _ W) as Z. destruct e; cbn [child_named].
      * rewrite eqb_bytes_refl. apply TK. rewrite Z. destruct (rs_mode s); reflexivity.
      * cbn [bind]. destruct IN as (_ & IN). unfold fill. destruct (rs_mode s); try discriminate IN; eexists; (split; [reflexivity|constructor]).
    + cbn [child_named]. rewrite eqb_bytes_refl. apply TK. destruct (rs_mode s); reflexivity.
  - apply TK. assert (OK : out_kids vs kss nss (WSlot i None e dr) = nth i nss []).
    { cbn [out_kids]. destruct (nth i kss []) eqn:EK; [|reflexivity]. now rewrite (wrote_nil _ W). }
    assert (ONE : forall n k, match rs_mode s with RAll | RAllUuid => False | _ => True end -> rs_kinds s = [(n, k)] -> child_named (txt n) (the_kids c vs kss nss) = child_named (txt n) (nth i nss [])).
    { intros n k RM RK. unfold the_kids. rewrite (find_child _ _ _ _ NB (txt n) (swrites c) _ (nums c) D2 FI); [now rewrite OK|]. cbn [kid_names]. rewrite N, RK. cbn [map snd].
      destruct C2 as (_ & C2). rewrite RK in C2. destruct (rs_mode s); try contradiction; left; now rewrite C2. }
    destruct (rs_mode s); cbv beta iota in ON; try (rewrite (only_item _ ON); exact OK); intros n k; now apply ONE.
Qed.
Lemma slots_back : Forall2 in_rslot (sslots c) kss -> (forall i, (i < List.length kss)%nat -> wrote_list (nth i kss []) (nth i nss [])) ->
  exists oss, (forall d, deep d -> sread_slots (read_sobj d) (sslots c) (the_kids c vs kss nss) = Ok oss) /\ Forall2 (Forall2 same_sobj) kss oss.
Proof.
  intros F W.
  assert (G : forall ss i, (forall j s, nth_error ss j = Some s -> nth_error (sslots c) (i + j) = Some s) -> forall kk, (forall j, nth j kk [] = nth (i + j) kss []) -> Forall2 in_rslot ss kk ->
    (i + List.length kk <= List.length kss)%nat ->
    exists oss, (forall d, deep d -> sread_slots (read_sobj d) ss (the_kids c vs kss nss) = Ok oss) /\ Forall2 (Forall2 same_sobj) kk oss).
  { induction ss as [|s ss IH]; intros i NE kk EK FF LL; inversion FF as [|? ks ? kk' F1 F2]; subst; [exists []; split; [reflexivity|constructor]|].
    cbn [List.length] in LL. pose proof (EK O) as E0. pose proof (NE O s eq_refl) as N0. rewrite Nat.add_0_r in E0, N0. cbn [nth] in E0.
    destruct (slot_back i s N0) as (os & R & S).
    - now rewrite <- E0.
    - apply W. lia.
    - destruct (IH (Datatypes.S i)) with (kk := kk') as (oss & R2 & S2).
      + intros j x Hx. specialize (NE (Datatypes.S j) x Hx). now rewrite Nat.add_succ_r in NE.
      + intros j. specialize (EK (Datatypes.S j)). cbn [nth] in EK. rewrite EK. f_equal. lia.
      + exact F2.
      + lia.
      + exists (os :: oss). split; [intros d D; cbn [sread_slots]; rewrite (R d D); cbn [bind]; now rewrite (R2 d D)|]. constructor; [now rewrite E0|exact S2]. }
  apply (G (sslots c) O); auto.
Qed.
End Slots.

(** ** Trees *)
Fixpoint write_slots (l : list (list sobj)) : res (list (list node)) :=
  match l with [] => Ok [] | ks :: r => do ns <- write_sobjs ks; do nss <- write_slots r; Ok (ns :: nss) end.
Lemma write_sobj_eq c vs kss : write_sobj (SObj c vs kss) =
  if left_out c vs kss then Ok [] else
  do nss <- write_slots kss; do st <- write_items vs kss nss (swrites c) ([], []); Ok [Elem (sname c) (fst st) (snd st)].
Proof.
  reflexivity.
Qed.
Lemma Forall2_len {A B} (R : A -> B -> Prop) l m : Forall2 R l m -> List.length l = List.length m.
Proof. induction 1; cbn [List.length]; congruence. Qed.
Lemma Each_impl {A} (P Q : A -> Prop) l : (forall x, P x -> Q x) -> Each P l -> Each Q l.
Proof. intros H. induction l as [|x l IH]; [auto|]. intros (E & F). split; auto. Qed.
Theorem tree_back : forall o, sobj_ok o -> exists ns, write_sobj o = Ok ns /\ wrote o ns.
Proof.
  induction o as [c vs kss IH] using sobj_induction. intros OK. inversion OK as [? ? ? M F SH KO]; subst. rewrite write_sobj_eq.
  destruct (left_out c vs kss) eqn:LO.
  { exists []. split; [reflexivity|]. left. split; [reflexivity|]. destruct c; try discriminate LO; cbn [left_out shape_ok] in *.
    - destruct (nth 5 kss []); [contradiction|discriminate LO].
    - split; [reflexivity|]. destruct M as (M1 & _ & M3). inversion F; subst. unfold sfresh. cbn [sslots map]. constructor; [|constructor].
      destruct (M1 "fGobo"%string (SC KText) WAlways ltac:(now left)) as (V & _). unfold no_text in LO. cbn [sval_ok val_ok] in V.
      destruct (get "fGobo" vs) as [[|x s]| | | | | | | | | | | | |] eqn:GG; try contradiction V; try discriminate LO. specialize (SH eq_refl).
      intros g. left. cbn [sfields]. cbn [get]. destruct (String.eqb g "fGobo") eqn:E1; [apply String.eqb_eq in E1; subst; exact GG|].
      destruct (String.eqb g "fGoboRotation") eqn:E2; [apply String.eqb_eq in E2; subst; exact SH|]. apply M3. cbn [sfields map fst].
      apply String.eqb_neq in E1, E2. intros [Q|[Q|[]]]; congruence. }
  assert (DR : c = SMapDef -> nth 0 kss [] <> []) by (intros ->; exact SH).
  assert (KK : Forall (Forall (fun o => exists ns, write_sobj o = Ok ns /\ wrote o ns)) kss).
  { clear -IH KO. induction IH as [|ks kss H1 _ IH2]; [constructor|]. inversion KO as [|? ? K1 K2]; subst. constructor; [|exact (IH2 K2)].
    clear -H1 K1. induction H1; inversion K1; subst; constructor; auto. }
  assert (WS : exists nss, write_slots kss = Ok nss /\ (forall i, (i < List.length kss)%nat -> wrote_list (nth i kss []) (nth i nss []))).
  { assert (GC : Forall (fun s => Each (fun k : string * scls => match snd k with SGobo => rs_mode s = ROne | _ => True end) (rs_kinds s)) (sslots c)).
    { apply Forall_forall. intros s I. apply In_nth_error in I as (i & E). destruct (slot_of c i s E) as (_ & C & _). revert C. apply Each_impl. intros k (_ & Q & _). exact Q. }
    clear -F KK GC. induction F as [|s ks ss kss F1 F2 IH]; [exists []; split; [reflexivity|]; intros i L; cbn in L; lia|].
    inversion KK as [|? ? K1 K2]; inversion GC as [|? ? G1 G2]; subst. destruct (IH K2 G2) as (nss & E & W). destruct (wrote_all s ks F1 G1 K1) as (ns & E1 & W1).
    exists (ns :: nss). cbn [write_slots]. rewrite E1. cbn [bind]. rewrite E. split; [reflexivity|]. intros [|i] L; cbn [nth List.length] in *; [exact W1|apply W; lia]. }
  destruct WS as (nss & -> & W). cbn [bind].
  assert (NB : named_by (sslots c) kss nss).
  { intros i s E. assert (L : (i < List.length kss)%nat) by (rewrite <- (Forall2_len _ _ _ F); apply nth_error_Some; congruence). specialize (W i L).
    assert (IR : in_rslot s (nth i kss [])).
    { clear -F E. revert i E. induction F; intros [|i] E; try discriminate E; [injection E as <-; assumption|]. cbn [nth nth_error] in *. auto. }
    destruct IR as (IR & _). destruct W as [(o & _ & -> & _) |(l & E1 & <- & R)]; [intros ? []|]. rewrite <- E1 in IR. clear -IR R.
    induction R as [|k l ((a & ks & EN) & _) R IHl]; [intros ? []|]. cbn [map] in *. inversion IR as [|? ? I1 I2]; subst. unfold elem_names. cbn [flat_map]. rewrite EN.
    cbn [app]. intros x [<- |J]; [|exact (IHl I2 x J)]. rewrite <- map_map with (f := snd). now apply in_map. }
  rewrite (written_items c vs kss nss M DR). cbn [bind fst snd]. eexists. split; [reflexivity|]. right.
  destruct (members_back c vs kss nss M NB) as (v1 & RM & SM).
  destruct (slots_back c vs kss nss NB F W) as (oss & RS & SO).
  exists (mkSkid (SObj c vs kss) (Elem (sname c) (the_attrs c vs) (the_kids c vs kss nss)) (SObj c v1 oss)). cbn [sk_obj sk_node]. split; [reflexivity|]. split; [reflexivity|].
  unfold reads_as. cbn [sk_obj sk_node sk_back sclass]. split; [eauto|]. split; [now constructor|]. split.
  - intros U. unfold uuid_entry in U. apply find_some in U as (U & _). cbn [has_uuid]. unfold the_attrs.
    pose proof (chk_items c) as K. rewrite !andb_true_iff in K. destruct K as ((((D1 & _) & _) & _) & _).
    rewrite (find_attr vs T"uuid" (swrites c) _ D1 U) by (now left). cbn [out_attrs]. destruct M as (M1 & _).
    destruct (M1 "fGuid"%string SGuid WIfGuid) as (V & _). { apply in_flat_map. eexists. split; [exact U|now left]. }
    destruct (get "fGuid" vs) as [| | | | | | | | | |u| | |] eqn:GU; try contradiction V. cbn [written get_attr]. rewrite eqb_bytes_refl. split; [reflexivity|].
    destruct (enc_ok SGuid (VUuid u) eq_refl V) as (s & W1 & _ & _ & TX & _). cbn [swrite_conv] in W1. apply Ok_inj in W1. subst s.
    unfold key_of, attr_text. rewrite (find_attr vs T"uuid" (swrites c) _ D1 U) by (now left). cbn [out_attrs]. rewrite GU. cbn [written get_attr].
    rewrite eqb_bytes_refl, TX. cbn [bind]. unfold guid_text. cbn [smembers]. now rewrite GU.
  - intros [|d] D; [cbn [depth] in D; lia|]. cbn [depth] in D. apply le_S_n in D. cbn [read_sobj]. rewrite RM. cbn [bind]. rewrite (RS d D). reflexivity.
Qed.
