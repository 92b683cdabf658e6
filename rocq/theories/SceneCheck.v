(** A test for [scene_ok], for the concrete cases beside the theorems. *)
From Coq Require Import String List NArith ZArith Bool Lia.
From Coq Require Import ZifyN ZifyNat ZifyBool.
From Verif Require Import Bytes BytesProofs Txt NumModel FloatModel ConvModel UuidModel UuidProps EnumModel VecModel VecProps
  XmlModel XmlSpec XmlProofs ObjModel ObjSpec ObjConv ObjCheck SceneModel SceneSpec SceneConv SceneTree SceneProofs.
Import ListNotations.
Open Scope N_scope.
Open Scope list_scope.
Ltac Zify.zify_post_hook ::= idtac.

(** ** Members *)
Definition uuidb (u : list N) : bool := forallb (fun b => b <? 256) u && (List.length u =? 16)%nat.
Lemma uuidb_ok u : uuidb u = true -> uuid_ok u.
Proof. exact (val_okb_ok KUuid 0 (VUuid u)). Qed.
(** The text of one of the GUIDs in the list. *)
Definition text_of_uuid (us : list (list N)) (s : list N) : bool := existsb (fun u => uuidb u && eqb_bytes s (uuid_text false u)) us.
Lemma text_of_uuid_ok us s : text_of_uuid us s = true -> uuid_like s.
Proof. intros H. apply existsb_exists in H as (u & _ & H). apply andb_prop in H as (U & E). apply eqb_bytes_iff in E. exists u. split; [now apply uuidb_ok|exact E]. Qed.
Definition sval_okb (us : list (list N)) (k : sconv) (v : val) : bool :=
  match k, v with
  | SC c, _ => val_okb c 0 v
  | SGuid, VUuid u => uuidb u
  | SMulti, VTxt s => is_empty s || text_of_uuid us s
  | SMatrix, VMat m => matb m
  | SSint8, VInt z => ((-128 <=? z) && (z <=? 127))%Z
  | SCustom, VNat n => n <? 2147483648
  | SNet, VTxt s => asciib s && negb (is_empty s)
  | _, _ => false
  end.
Lemma sval_okb_ok us k v : sval_okb us k v = true -> sval_ok k v.
Proof.
  destruct k as [c| | | | | |]; [apply val_okb_ok| | | | | |]; destruct v; try discriminate; cbn [sval_okb sval_ok]; intros H.
  - now apply uuidb_ok.
  - apply orb_prop in H as [H|H]; [left; destruct s; [reflexivity|discriminate H]|right; exact (text_of_uuid_ok us s H)].
  - now apply matb_ok.
  - lia.
  - now apply N.ltb_lt.
  - apply andb_prop in H as (A & B). split; [apply ascii_good, asciib_ok, A|]. now intros ->.
Qed.
Fixpoint starts_with (p s : list N) : bool :=
  match p, s with [], _ => true | a :: p, b :: s => (a =? b) && starts_with p s | _, [] => false end.
Fixpoint occurs (p s : list N) : bool := starts_with p s || match s with [] => false | _ :: r => occurs p r end.
Lemma starts_ok p : forall s r, s = p ++ r -> starts_with p s = true.
Proof. induction p as [|a p IH]; intros s r ->; [reflexivity|]. cbn [app starts_with]. rewrite N.eqb_refl. now apply (IH _ r). Qed.
Lemma occurs_ok p s : occurs p s = false -> ~ within p s.
Proof.
  intros H (a & b & E). revert s H E. induction a as [|x a IH]; intros s H E.
  - cbn [app] in E. assert (S : starts_with p s = true) by now apply (starts_ok p s b). destruct s; cbn [occurs] in H; rewrite S in H; discriminate H.
  - destruct s as [|y s]; [discriminate E|]. cbn [occurs] in H. apply orb_false_elim in H as (_ & H). injection E as _ E. now apply (IH s).
Qed.
Definition command_okb (vs : env) : bool :=
  match get "fChannelFunction" vs, get "fIsPercentage" vs, get "fValue" vs with
  | VTxt f, VFlag p, VDbl x => asciib f && (nlen f <? 2 ^ 62) && validb x && negb (occurs T"/percent" f) && (p || forallb (fun c => negb (c =? 44)) f)
  | _, _, _ => false
  end.
Lemma command_okb_ok vs : command_okb vs = true -> command_ok vs.
Proof.
  unfold command_okb, command_ok. destruct (get "fChannelFunction" vs) as [f| | | | | | | | | | | | |]; try discriminate.
  destruct (get "fIsPercentage" vs) as [| | | |p| | | | | | | | |]; try discriminate. destruct (get "fValue" vs) as [|x| | | | | | | | | | | |]; try discriminate.
  intros H. apply andb_prop in H as (H & H5). apply andb_prop in H as (H & H4). apply andb_prop in H as (H & H3). apply andb_prop in H as (H1 & H2).
  exists f, p, x. repeat (split; [reflexivity|]). split; [apply ascii_good, asciib_ok, H1|]. split; [now apply N.ltb_lt|]. split; [now apply validb_ok|].
  split; [apply occurs_ok; now destruct (occurs T"/percent" f)|]. intros -> I. cbn [orb] in H5. rewrite forallb_forall in H5. specialize (H5 44 I). discriminate H5.
Qed.
Definition members_okb (us : list (list N)) (c : scls) (vs : env) : bool :=
  forallb (fun e => let '(f, k, w) := e in sval_okb us k (get f vs) &&
    match w with WIfMatrix => SceneModel.written w (get f vs) || val_eqb (get f vs) (VMat identity) | _ => true end) (flat_map entry (swrites c))
  && (negb (existsb (fun it => match it with WCommand => true | _ => false end) (swrites c)) || command_okb vs)
  && forallb (fun p => existsb (String.eqb (fst p)) (map fst (sfields c))) vs.
Lemma members_okb_ok us c vs : members_okb us c vs = true -> members_ok c vs.
Proof.
  unfold members_okb. intros H. apply andb_prop in H as (H & H3). apply andb_prop in H as (H1 & H2). rewrite forallb_forall in H1, H3. split; [|split].
  - intros f k w I. specialize (H1 _ I). cbv beta iota in H1. apply andb_prop in H1 as (A & B). split; [now apply (sval_okb_ok us)|]. intros -> E. rewrite E in B. cbn [orb] in B. now apply val_eqb_ok.
  - intros I. apply orb_prop in H2 as [H2|H2]; [|now apply command_okb_ok]. exfalso.
    assert (X : existsb (fun it => match it with WCommand => true | _ => false end) (swrites c) = true) by (apply existsb_exists; exists WCommand; auto). rewrite X in H2. discriminate H2.
  - intros g N. apply ObjCheck.get_absent. intros I. apply N. apply in_map_iff in I as (p & <- & I). specialize (H3 p I). apply existsb_exists in H3 as (x & J & E). apply String.eqb_eq in E. now rewrite E.
Qed.

(** ** Objects *)
Definition scls_dec (a b : scls) : {a = b} + {a <> b}.
Proof. decide equality. Defined.
Definition is_class (c d : scls) : bool := if scls_dec c d then true else false.
Lemma is_class_ok c d : is_class c d = true -> c = d.
Proof. unfold is_class. destruct (scls_dec c d); [auto|discriminate]. Qed.
Definition rslot_okb (s : rslot) (l : list sobj) : bool :=
  forallb (fun o => existsb (is_class (sclass o)) (map snd (rs_kinds s))) l &&
  match rs_mode s with RAll | RAllUuid => true | ROpt => (List.length l <=? 1)%nat | ROne => (List.length l =? 1)%nat end.
Lemma rslot_okb_ok s l : rslot_okb s l = true -> in_rslot s l.
Proof.
  unfold rslot_okb. intros H. apply andb_prop in H as (H & M). split.
  - rewrite forallb_forall in H. apply Forall_forall. intros o I. specialize (H o I). apply existsb_exists in H as (d & J & E). apply is_class_ok in E. now rewrite E.
  - destruct (rs_mode s); [exact I|exact I|now apply Nat.leb_le|now apply Nat.eqb_eq].
Qed.
Fixpoint rslots_okb (ss : list rslot) (kss : list (list sobj)) : bool :=
  match ss, kss with [], [] => true | s :: ss, ks :: kss => rslot_okb s ks && rslots_okb ss kss | _, _ => false end.
Lemma rslots_okb_ok : forall ss kss, rslots_okb ss kss = true -> Forall2 in_rslot ss kss.
Proof.
  induction ss as [|s ss IH]; intros [|ks kss] H; try discriminate H; constructor; cbn [rslots_okb] in H; apply andb_prop in H as (A & B); [now apply rslot_okb_ok|now apply IH].
Qed.
Definition shape_okb (c : scls) (vs : env) (kss : list (list sobj)) : bool :=
  match c with
  | SGroup => match nth 5 kss [] with [] => false | _ => true end
  | SMapDef => match nth 0 kss [] with [] => false | _ => true end
  | SGobo => negb (val_eqb (get "fGobo" vs) (VTxt [])) || val_eqb (get "fGoboRotation" vs) (VDbl zero)
  | _ => true
  end.
Lemma shape_okb_ok c vs kss : shape_okb c vs kss = true -> shape_ok c vs kss.
Proof.
  unfold shape_okb, shape_ok. destruct c; try (intros; exact I).
  - destruct (nth 0 kss []); [discriminate|intros _; discriminate].
  - destruct (nth 5 kss []); [discriminate|intros _; discriminate].
  - intros H E. apply orb_prop in H as [H|H]; [|now apply val_eqb_ok]. rewrite E in H. vm_compute in H. discriminate H.
Qed.
Fixpoint sobj_okb (us : list (list N)) (o : sobj) : bool :=
  match o with SObj c vs kss => members_okb us c vs && rslots_okb (sslots c) kss && shape_okb c vs kss && forallb (forallb (sobj_okb us)) kss end.
Lemma sobj_okb_ok us o : sobj_okb us o = true -> sobj_ok o.
Proof.
  induction o as [c vs kss IH] using sobj_induction. cbn [sobj_okb]. intros H. apply andb_prop in H as (H & H4). apply andb_prop in H as (H & H3). apply andb_prop in H as (H1 & H2).
  constructor; [now apply (members_okb_ok us)|now apply rslots_okb_ok|now apply shape_okb_ok|]. rewrite forallb_forall in H4. rewrite Forall_forall in *. intros ks I. specialize (IH ks I). specialize (H4 ks I).
  rewrite forallb_forall in H4. rewrite Forall_forall in *. intros k J. exact (IH k J (H4 k J)).
Qed.

(** ** References *)
Definition everything (l : list sobj) : list sobj := flat_map (fun e => match e with Left o => [o] | Met _ => [] end) (flat_map walk l).
Lemma everything_ok o l : within_any o l <-> In o (everything l).
Proof.
  rewrite <- walk_within. unfold everything. rewrite (in_flat_map (fun e => match e with Left o => [o] | Met _ => [] end)). split; [intros H; exists (Left o); split; [exact H|now left]|]. intros ([x|x] & I & J); [destruct J|destruct J as [<- |[]]; exact I].
Qed.
Definition no_refb (f : string) (o : sobj) : bool := match get f (smembers o) with VTxt [] => true | VTxt _ => false | _ => true end.
Lemma no_refb_ok f o : no_refb f o = true -> no_reference f o.
Proof. unfold no_refb, no_reference. intros H s E. rewrite E in H. destruct s; [reflexivity|discriminate H]. Qed.
Definition guid_isb (s : list N) (o : sobj) : bool := match get "fGuid" (smembers o) with VUuid u => eqb_bytes s (uuid_text false u) | _ => false end.
Lemma guid_isb_ok s o : guid_isb s o = true -> guid_is o s.
Proof. unfold guid_isb, guid_is. destruct (get "fGuid" (smembers o)); try discriminate. intros H. apply eqb_bytes_iff in H. eauto. Qed.
Definition refersb (f : string) (l : list sobj) (o : sobj) : bool := match get f (smembers o) with VTxt [] => true | VTxt s => existsb (guid_isb s) l | _ => true end.
Lemma refersb_ok f (P : sobj -> Prop) l o : (forall p, In p l -> P p) -> refersb f l o = true -> refers f o P.
Proof.
  unfold refersb, refers. intros H B s E. rewrite E in B. destruct s as [|x s]; [now left|right]. apply existsb_exists in B as (p & I & G). exists p. split; [now apply H|now apply guid_isb_ok].
Qed.
Fixpoint parentsb (seen : list sobj) (l : list event) : bool :=
  match l with
  | [] => true
  | Met o :: r => refersb "fMultipatchObj" seen o && parentsb seen r
  | Left o :: r => parentsb (if in_scene (sclass o) then o :: seen else seen) r
  end.
Lemma parentsb_ok l : forall seen past, (forall p, In p seen -> in_scene (sclass p) = true /\ In (Left p) past) -> parentsb seen l = true ->
  forall before o after, l = before ++ Met o :: after -> refers "fMultipatchObj" o (fun p => in_scene (sclass p) = true /\ In (Left p) (past ++ before)).
Proof.
  induction l as [|e l IH]; intros seen past S H before o after E; [destruct before; discriminate E|]. destruct before as [|e' before]; cbn [app] in E; injection E as E1 E2.
  - subst e. cbn [parentsb] in H. apply andb_prop in H as (H & _). rewrite app_nil_r. now apply (refersb_ok _ _ seen).
  - subst e'. assert (P : past ++ e :: before = (past ++ [e]) ++ before) by now rewrite <- app_assoc. rewrite P. destruct e as [x|x]; cbn [parentsb] in H.
    + apply andb_prop in H as (_ & H). apply (IH seen (past ++ [Met x])) with after; [|exact H|exact E2]. intros p I. destruct (S p I) as (A & B). split; [exact A|apply in_or_app; now left].
    + eapply (IH _ (past ++ [Left x])); [|exact H|exact E2]. intros p I. destruct (in_scene (sclass x)) eqn:SC.
      * destruct I as [<- |I]; [split; [exact SC|apply in_or_app; right; now left]|]. destruct (S p I) as (A & B). split; [exact A|apply in_or_app; now left].
      * destruct (S p I) as (A & B). split; [exact A|apply in_or_app; now left].
Qed.
Definition symbolb (defs : list sobj) (p o : sobj) : bool :=
  negb (is_class (sclass o) SSymbol) ||
  (if in_scene (sclass p) || match sclass p with SSymdef => true | _ => false end
   then match get "fSymDef" (smembers o) with VTxt t => existsb (guid_isb t) defs | _ => false end
   else no_refb "fSymDef" o).
Lemma child_in o p : child o p -> In o (concat (skids p)).
Proof. intros H. inversion H as [c vs kss ks o' I J]; subst. cbn [skids]. apply in_concat. eauto. Qed.
Fixpoint nodupb (l : list val) : bool := match l with [] => true | v :: r => negb (existsb (val_eqb v) r) && nodupb r end.
Lemma nodupb_ok l : nodupb l = true -> NoDup l.
Proof.
  induction l as [|v l IH]; intros H; constructor; cbn [nodupb] in H; apply andb_prop in H as (A & B); [|now apply IH]. intros I.
  assert (X : existsb (val_eqb v) l = true) by (apply existsb_exists; exists v; split; [exact I|]; unfold val_eqb; destruct (val_dec v v); [reflexivity|contradiction]). rewrite X in A. discriminate A.
Qed.
Definition refs_okb (s : scene) : bool :=
  let all := everything (sc_layers s) in
  forallb (no_refb "fClass") (everything (sc_layers s ++ sc_maps s ++ sc_positions s ++ sc_symdefs s)) &&
  forallb (refersb "fFocusPoint" (filter (fun p => is_class (sclass p) SFocusPoint) all)) all &&
  forallb (refersb "fPosition" (sc_positions s)) all &&
  parentsb [] (flat_map walk (sc_layers s)) &&
  forallb (no_refb "fMultipatchObj") (everything (sc_maps s ++ sc_positions s ++ sc_symdefs s)) &&
  forallb (fun p => forallb (symbolb (sc_symdefs s) p) (concat (skids p))) (everything (sc_layers s ++ sc_symdefs s)) &&
  nodupb (map (fun d => get "fGuid" (smembers d)) (sc_symdefs s)) &&
  (existsb (fun o => in_scene (sclass o)) all || forallb (fun d => forallb (fun o => negb (is_class (sclass o) SSymbol)) (concat (skids d))) (sc_symdefs s)).
Lemma refs_okb_ok s : refs_okb s = true -> refs_ok s.
Proof.
  unfold refs_okb. intros H. apply andb_prop in H as (H & H8). apply andb_prop in H as (H & H7). apply andb_prop in H as (H & H6). apply andb_prop in H as (H & H5).
  apply andb_prop in H as (H & H4). apply andb_prop in H as (H & H3). apply andb_prop in H as (H1 & H2). rewrite forallb_forall in H1, H2, H3, H5, H6. constructor.
  - intros o W. apply everything_ok in W. apply no_refb_ok, H1, W.
  - intros o W. apply everything_ok in W. apply (refersb_ok _ _ (filter (fun p => is_class (sclass p) SFocusPoint) (everything (sc_layers s)))); [|apply H2, W].
    intros p I. apply filter_In in I as (I & C). apply is_class_ok in C. split; [exact C|now apply everything_ok].
  - intros o W. apply everything_ok in W. apply (refersb_ok _ _ (sc_positions s)); [auto|apply H3, W].
  - intros before o after E. exact (parentsb_ok _ [] [] ltac:(intros ? []) H4 before o after E).
  - intros o W. apply everything_ok in W. apply no_refb_ok, H5, W.
  - intros o p W C K. apply everything_ok in W. specialize (H6 p W). rewrite forallb_forall in H6. specialize (H6 o (child_in o p C)). unfold symbolb in H6.
    apply orb_prop in H6 as [H6|H6]; [rewrite K in H6; vm_compute in H6; discriminate H6|]. destruct (in_scene (sclass p) || _); [|now apply no_refb_ok].
    destruct (get "fSymDef" (smembers o)) as [t| | | | | | | | | | | | |] eqn:G; try discriminate H6. apply existsb_exists in H6 as (d & I & J). exists t, d. split; [reflexivity|]. split; [exact I|now apply guid_isb_ok].
  - now apply nodupb_ok.
  - apply orb_prop in H8 as [H8|H8].
    + left. apply existsb_exists in H8 as (o & I & E). exists o. split; [now apply everything_ok|exact E].
    + right. intros d o I C E. rewrite forallb_forall in H8. specialize (H8 d I). rewrite forallb_forall in H8. specialize (H8 o (child_in o d C)). rewrite E in H8. vm_compute in H8. discriminate H8.
Qed.
Definition kindb (us : list (list N)) (c : scls) (l : list sobj) : bool := forallb (fun o => is_class (sclass o) c && sobj_okb us o) l.
Lemma kindb_ok us c l : kindb us c l = true -> of_kind c l.
Proof.
  unfold kindb, of_kind. intros H. rewrite forallb_forall in H. apply Forall_forall. intros o I. specialize (H o I). apply andb_prop in H as (A & B). split; [now apply is_class_ok|now apply (sobj_okb_ok us)].
Qed.
Definition scene_okb (us : list (list N)) (s : scene) : bool :=
  asciib (sc_provider s) && asciib (sc_version s) && kindb us SProvider (sc_data s) && kindb us SLayer (sc_layers s) && kindb us SMapDef (sc_maps s) &&
  kindb us SPosition (sc_positions s) && kindb us SSymdef (sc_symdefs s) && refs_okb s.
Lemma scene_okb_ok us s : scene_okb us s = true -> scene_ok s.
Proof.
  unfold scene_okb. intros H. apply andb_prop in H as (H & H8). apply andb_prop in H as (H & H7). apply andb_prop in H as (H & H6). apply andb_prop in H as (H & H5).
  apply andb_prop in H as (H & H4). apply andb_prop in H as (H & H3). apply andb_prop in H as (H1 & H2).
  split; [now apply ascii_good, asciib_ok|]. split; [now apply ascii_good, asciib_ok|]. repeat (split; [now apply (kindb_ok us)|]). now apply refs_okb_ok.
Qed.
