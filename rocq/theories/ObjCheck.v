(** A test for [obj_ok], for the concrete cases beside the theorems. *)
From Coq Require Import String List NArith ZArith Bool Lia.
From Coq Require Import ZifyN ZifyNat ZifyBool.
From Verif Require Import Bytes Txt UtfSpec NumModel FloatModel FloatProps ConvModel ConvProps ConvProps2 UuidModel UuidProps
  EnumModel VecModel VecProps DmxModel DmxValProps StringSpec XmlModel XmlProofs ObjModel ObjSpec ObjConv ObjAttrs.
Import ListNotations.
Open Scope N_scope.
Open Scope list_scope.
Ltac Zify.zify_post_hook ::= idtac.

Definition val_dec (a b : val) : {a = b} + {a <> b}.
Proof.
  assert (F : forall x y : fl, {x = y} + {x <> y}) by (decide equality; try apply bool_dec; apply N.eq_dec).
  assert (V : forall x y : vec, {x = y} + {x <> y}) by (repeat decide equality).
  decide equality; try apply N.eq_dec; try apply Z.eq_dec; try apply bool_dec; try apply F; try apply V; try (apply list_eq_dec; (apply V || apply N.eq_dec)).
  - decide equality.
  - decide equality; apply N.eq_dec.
  - repeat decide equality.
Defined.
Definition val_eqb (a b : val) : bool := if val_dec a b then true else false.
Definition is_doubleb (u : N) : bool := (u <? 2 ^ 2098) && (u mod 2 ^ (N.size u - 53) =? 0).
Definition validb (x : fl) : bool := match x with Fin _ u => is_doubleb u | _ => true end.
Definition eachb (v : vec) : bool := let '(a, b, c) := v in validb a && validb b && validb c.
Definition matb (m : mat) : bool := eachb (mU m) && eachb (mV m) && eachb (mW m) && eachb (mO m).
Definition asciib (s : list N) : bool := forallb (fun c => (c <? 128) && negb (c =? 0) && negb (c =? 13)) s.
Definition u16b (l : list N) : bool := forallb (fun x => x <? 65536) l.
Definition sint32b (z : Z) : bool := ((- 2147483648 <=? z) && (z <=? 2147483647))%Z.
Definition offb (o : N * N * N * N) : bool :=
  let '(a, b, c, d) := o in
  ((a =? 0) && (b =? 0) && (c =? 0) && (d =? 0)) ||
  (u16b [a; b; c; d] && (0 <? a) && (negb (b =? 0) || (c =? 0)) && (negb (c =? 0) || (d =? 0))).
Definition val_okb (k : conv) (reso : N) (v : val) : bool :=
  match k, v with
  | KText, VTxt s => asciib s
  | KDouble, VDbl x => validb x
  | (KSint32 | KBreak), VInt z => sint32b z
  | (KUint32 | KSize), VNat n => n <? 2147483648
  | KUint8, VNat n => n <? 256
  | KHex, VNat n => n <=? 65535
  | KUuid, VUuid u => forallb (fun b => b <? 256) u && (List.length u =? 16)%nat
  | (KColor | KVec), VVec c => eachb c
  | KColors, VVecs l => forallb eachb l
  | KMatrix, VMat m => matb m
  | KRotation, VMat m => matb m && val_eqb (VVec (mO m)) (VVec (zero, zero, zero))
  | KPoint, VPt x y => validb x && validb y
  | KDate, VDate d => u16b [fYear d; fMonth d; fDay d; fHour d; fMinute d; fSecond d]
  | KBool, VFlag _ => true
  | KEnum t, VNat n => existsb (N.eqb n) (et_values t)
  | KAddress, VNat a => (1 <=? a) && (a <? 65536)
  | KDmx, VDmx none v => negb none && (v <=? top reso)
  | KHigh, VDmx none v => if none then v =? 0 else v <=? top reso
  | KOffset, VOff o => offb o
  | _, _ => false
  end.
Lemma is_doubleb_ok u : is_doubleb u = true -> is_double u.
Proof.
  unfold is_doubleb. intros H. apply andb_prop in H as (H1 & H2). apply N.ltb_lt in H1. apply N.eqb_eq in H2. split; [|exact H1].
  set (k := N.size u - 53) in *. exists (u / 2 ^ k), k. assert (P : 2 ^ k <> 0) by (apply N.pow_nonzero; discriminate). split.
  - pose proof (N.div_mod u (2 ^ k) P) as D. rewrite H2, N.add_0_r, N.mul_comm in D. exact D.
  - apply N.div_lt_upper_bound; [exact P|]. rewrite <- N.pow_add_r. pose proof (N.size_gt u) as G. eapply N.lt_le_trans; [exact G|].
    apply N.pow_le_mono_r; [discriminate|]. unfold k. lia.
Qed.
Lemma validb_ok x : validb x = true -> valid x.
Proof. destruct x; [apply is_doubleb_ok|intros; exact I|intros; exact I]. Qed.
Lemma eachb_ok v : eachb v = true -> each valid v.
Proof. destruct v as ((a, b), c). cbn [eachb each]. intros H. apply andb_prop in H as (H & Hc). apply andb_prop in H as (Ha & Hb). auto using validb_ok. Qed.
Lemma matb_ok m : matb m = true -> valid_mat m.
Proof.
  unfold matb. intros H. apply andb_prop in H as (H & Hd). apply andb_prop in H as (H & Hc). apply andb_prop in H as (Ha & Hb). repeat split; now apply eachb_ok.
Qed.
Lemma asciib_ok s : asciib s = true -> ascii s.
Proof. unfold asciib. intros H. rewrite forallb_forall in H. apply Forall_forall. intros c Hc. specialize (H c Hc). lia. Qed.
Lemma val_eqb_ok a b : val_eqb a b = true -> a = b.
Proof. unfold val_eqb. destruct (val_dec a b); [auto|discriminate]. Qed.
Lemma val_okb_ok k reso v : val_okb k reso v = true -> val_ok k reso v.
Proof.
  destruct k, v; try discriminate; cbn [val_okb val_ok]; intros H; try (exact I).
  - apply ascii_good, asciib_ok, H.
  - apply validb_ok, H.
  - unfold sint32b in H. unfold sint32. lia.
  - now apply N.ltb_lt.
  - now apply N.ltb_lt.
  - now apply N.ltb_lt.
  - now apply N.leb_le.
  - apply andb_prop in H as (H1 & H2). apply Nat.eqb_eq in H2. split; [|exact H2]. rewrite forallb_forall in H1. apply Forall_forall. intros x Hx.
    specialize (H1 x Hx). unfold byte_ok. lia.
  - apply eachb_ok, H.
  - rewrite forallb_forall in H. apply Forall_forall. intros x Hx. apply eachb_ok, H, Hx.
  - apply eachb_ok, H.
  - apply matb_ok, H.
  - apply andb_prop in H as (H1 & H2). apply val_eqb_ok in H2. injection H2 as H2. split; [now apply matb_ok|exact H2].
  - apply andb_prop in H as (H1 & H2). auto using validb_ok.
  - unfold u16b in H. cbn [forallb] in H. unfold time_ok. lia.
  - apply existsb_exists in H as (x & Hx & E). apply N.eqb_eq in E. now subst.
  - unfold sint32b in H. unfold sint32. lia.
  - lia.
  - apply andb_prop in H as (H1 & H2). apply N.leb_le in H2. destruct none; [discriminate|]. auto.
  - destruct none; [now apply N.eqb_eq|now apply N.leb_le].
  - destruct o as (((a, b), c), d). cbn [offb] in H. apply orb_prop in H as [H|H].
    + right. assert (a = 0 /\ b = 0 /\ c = 0 /\ d = 0) as (-> & -> & -> & ->) by lia. reflexivity.
    + left. unfold u16b in H. cbn [forallb] in H. unfold offsets_ok. lia.
Qed.
Definition extra_okb (c : cls) (vs : env) (e : wentry) : bool :=
  match w_when e with
  | Deref => negb (no_text (w_field e) vs)
  | IfNonZero g =>
    match get g vs with
    | VDbl x => negb (eqb_bytes (fl_text point x) (fl_text point zero)) && negb (eqb_bytes (fl_text point x) (fl_text point (Fin true 0)))
    | _ => true
    end
  | _ => true
  end
  && match get (w_field e) vs with VTxt s => negb (existsb (fun r => match r_how r with NoSlash => String.eqb (r_field r) (w_field e) | _ => false end) (reads c))
       || forallb (fun x => negb (x =? 47)) s | _ => true end.
Definition attrs_okb (c : cls) (ctx : offsets) (vs : env) : bool :=
  forallb (fun e => if shown vs e then val_okb (w_conv e) (reso_of c ctx vs) (get (w_field e) vs) && extra_okb c vs e
    else val_eqb (get (w_field e) vs) (get (w_field e) (fields c))) (writes c)
  && forallb (fun e => forallb (fun r => negb (eqb_bytes (w_attr e) (r_attr r))
       || forallb (fun g => val_eqb (get g vs) (VFlag (shown vs e))) (flag_of (r_how r))) (reads c)) (writes c)
  && forallb (fun g => mem g (map w_field (writes c)) || mem g (flags c) || val_eqb (get g vs) (get g (fields c))) (map fst vs ++ map fst (fields c)).
Lemma get_absent g vs : ~ In g (map fst vs) -> get g vs = VUnset.
Proof.
  induction vs as [|(h, v) vs IH]; intros H; [reflexivity|]. cbn [get]. destruct (String.eqb g h) eqn:E.
  - apply String.eqb_eq in E. subst. contradiction H. now left.
  - apply IH. intros X. apply H. now right.
Qed.
Lemma attrs_okb_ok c ctx vs : attrs_okb c ctx vs = true -> attrs_ok c ctx vs.
Proof.
  unfold attrs_okb. intros H. apply andb_prop in H as (H & H3). apply andb_prop in H as (H1 & H2). rewrite forallb_forall in H1, H2, H3. split; [|split].
  - intros e Ie. specialize (H1 e Ie). destruct (shown vs e); [|now apply val_eqb_ok]. apply andb_prop in H1 as (H1 & X). split; [now apply val_okb_ok|].
    unfold extra_okb in X. apply andb_prop in X as (X & Y). split.
    + destruct (w_when e) as [| | | |g| |]; try exact I.
      * destruct (get g vs) as [| x | | | | | | | | | | | |]; try (intros []; fail). apply andb_prop in X as (X1 & X2). intros E; cbn [looks_zero] in E; destruct E as [E|E].
        -- assert (eqb_bytes (fl_text point x) (fl_text point zero) = true) by now apply eqb_bytes_iff. rewrite H in X1. discriminate.
        -- assert (eqb_bytes (fl_text point x) (fl_text point (Fin true 0)) = true) by now apply eqb_bytes_iff. rewrite H in X2. discriminate.
      * destruct (no_text (w_field e) vs); [discriminate|reflexivity].
    + intros r Ir Hr Fr. destruct (get (w_field e) vs) as [s| | | | | | | | | | | | |]; try exact I. apply orb_prop in Y as [Y|Y].
      * exfalso. assert (E : existsb (fun r => match r_how r with NoSlash => String.eqb (r_field r) (w_field e) | _ => false end) (reads c) = true).
        { apply existsb_exists. exists r. split; [exact Ir|]. rewrite Hr. now apply String.eqb_eq. }
        rewrite E in Y. discriminate.
      * intros J. rewrite forallb_forall in Y. specialize (Y 47 J). discriminate.
  - intros e r g Ie Ir E Ig. specialize (H2 e Ie). rewrite forallb_forall in H2. specialize (H2 r Ir). apply orb_prop in H2 as [H2|H2].
    + assert (eqb_bytes (w_attr e) (r_attr r) = true) by now apply eqb_bytes_iff. rewrite H in H2. discriminate.
    + rewrite forallb_forall in H2. now apply val_eqb_ok, H2.
  - intros g N1 N2. destruct (in_dec string_dec g (map fst vs ++ map fst (fields c))) as [I|I].
    + specialize (H3 g I). apply orb_prop in H3 as [H3|H3]; [|now apply val_eqb_ok]. apply orb_prop in H3 as [H3|H3]; apply mem_in in H3; contradiction.
    + rewrite in_app_iff in I. rewrite !get_absent; tauto.
Qed.

Definition cls_dec (a b : cls) : {a = b} + {a <> b}.
Proof. decide equality. Defined.
Definition among (c : cls) (l : list cls) : bool := existsb (fun d => if cls_dec c d then true else false) l.
Lemma among_in c l : among c l = true -> In c l.
Proof. unfold among. intros H. apply existsb_exists in H as (d & I & E). destruct (cls_dec c d); [now subst|discriminate]. Qed.
Fixpoint take (kinds : list cls) (ks : list obj) : list obj * list obj :=
  match ks with
  | k :: rest => if among (class k) kinds then let (a, b) := take kinds rest in (k :: a, b) else ([], ks)
  | [] => ([], [])
  end.
Lemma take_app kinds ks : fst (take kinds ks) ++ snd (take kinds ks) = ks /\ Forall (fun o => In (class o) kinds) (fst (take kinds ks)).
Proof.
  induction ks as [|k ks (E & F)]; [split; [reflexivity|constructor]|]. cbn [take]. destruct (among (class k) kinds) eqn:A; [|split; [reflexivity|constructor]].
  destruct (take kinds ks) as (a, b). cbn [fst snd] in *. split; [cbn [app]; now rewrite E|]. constructor; [now apply among_in|exact F].
Qed.
Fixpoint incb (l : list N) : bool := match l with a :: (b :: _) as r => (a <? b) && incb r | _ => true end.
Lemma incb_ok l : incb l = true -> increasing l.
Proof.
  induction l as [|a l IH]; [intros; exact I|]. destruct l as [|b l]; [intros; exact I|]. cbn [incb]. intros H. apply andb_prop in H as (H1 & H2).
  split; [now apply N.ltb_lt|exact (IH H2)].
Qed.
Definition post_okb (p : post) (ctx : offsets) (l : list obj) : bool :=
  match p with
  | NoPost => true
  | FirstAtZero => match l with o :: _ => dmx_start "fAdressStart" o =? 0 | [] => true end
  | AddSets => incb (map (dmx_start "fDmxStart") l)
      && (negb (is_virtual ctx) || forallb (fun o => dmx_start "fDmxStart" o <? channel_max ctx) l)
  end.
Definition env_dec (a b : env) : {a = b} + {a <> b}.
Proof. apply list_eq_dec. intros (g, v) (h, w). decide equality; [apply val_dec|apply string_dec]. Defined.
(** Only for objects without children. *)
Fixpoint leaves_eqb (a b : list obj) : bool :=
  match a, b with
  | [], [] => true
  | Obj c vs [] :: a, Obj d ws [] :: b => (if cls_dec c d then true else false) && (if env_dec vs ws then true else false) && leaves_eqb a b
  | _, _ => false
  end.
Lemma leaves_eqb_ok a : forall b, leaves_eqb a b = true -> a = b.
Proof.
  induction a as [|[c vs [|]] a IH]; intros [|[d ws [|]] b] H; try discriminate; [reflexivity|]. cbn [leaves_eqb] in H. apply andb_prop in H as (H & H2).
  apply andb_prop in H as (H0 & H1). destruct (cls_dec c d), (env_dec vs ws); try discriminate. subst. f_equal. now apply IH.
Qed.
Definition slot_okb (ctx : offsets) (s : slot) (l : list obj) : bool :=
  match s_mode s with
  | All => true
  | Opt => (List.length l <=? 1)%nat
  | One => (List.length l =? 1)%nat
  | Ignored => leaves_eqb l (map (fun k => fresh (snd k)) (s_kinds s))
  end && post_okb (s_post s) ctx l.
Fixpoint fitsb (ctx : offsets) (ss : list slot) (ks : list obj) : bool :=
  match ss with
  | [] => match ks with [] => true | _ => false end
  | s :: rest => let (a, b) := take (map snd (s_kinds s)) ks in slot_okb ctx s a && fitsb ctx rest b
  end.
Lemma fitsb_ok ctx : forall ss ks, fitsb ctx ss ks = true -> fits ctx ss ks.
Proof.
  induction ss as [|s ss IH]; intros ks H; cbn [fitsb] in H; [destruct ks; [constructor|discriminate]|].
  destruct (take_app (map snd (s_kinds s)) ks) as (E & F). destruct (take (map snd (s_kinds s)) ks) as (a, b). cbn [fst snd] in *. subst ks.
  apply andb_prop in H as (H1 & H2). constructor; [|now apply IH]. unfold slot_okb in H1. apply andb_prop in H1 as (H1 & P). split; [exact F|]. split.
  - destruct (s_mode s); [exact I|now apply Nat.leb_le|now apply Nat.eqb_eq|now apply leaves_eqb_ok].
  - destruct (s_post s); cbn [post_okb post_ok] in *; [exact I|destruct a; [exact I|now apply N.eqb_eq]|].
    apply andb_prop in P as (P1 & P2). split; [now apply incb_ok|]. intros V. rewrite V in P2. cbn [negb orb] in P2.
    rewrite forallb_forall in P2. apply Forall_forall. intros o Io. specialize (P2 o Io). now apply N.ltb_lt.
Qed.
Fixpoint obj_okb (ctx : offsets) (o : obj) : bool :=
  match o with
  | Obj c vs ks => attrs_okb c ctx vs && fitsb (own_offsets c ctx vs) (slots c) ks && forallb (obj_okb (own_offsets c ctx vs)) ks
  end.
Lemma obj_okb_ok : forall o ctx, obj_okb ctx o = true -> obj_ok ctx o.
Proof.
  fix go 1. intros [c vs ks] ctx H. cbn [obj_okb] in H. apply andb_prop in H as (H & H3). apply andb_prop in H as (H1 & H2).
  constructor; [now apply attrs_okb_ok|now apply fitsb_ok|]. clear H1 H2. revert H3. generalize (own_offsets c ctx vs) as own. intros own.
  induction ks as [|k ks IH]; intros H3; constructor; cbn [forallb] in H3; apply andb_prop in H3 as (H3 & H4); [now apply go|now apply IH].
Qed.
Fixpoint no_crb (o : obj) : bool :=
  match o with
  | Obj c vs ks => forallb (fun p => match snd p with VTxt s => forallb (fun x => negb (x =? 13)) s | _ => true end) vs && forallb no_crb ks
  end.
Lemma no_crb_ok : forall o, no_crb o = true -> no_cr_obj o.
Proof.
  fix go 1. intros [c vs ks] H. cbn [no_crb] in H. apply andb_prop in H as (H1 & H3). constructor.
  - intros g s G. rewrite forallb_forall in H1. assert (In (g, VTxt s) vs).
    { clear -G. induction vs as [|(h, v) vs IH]; [discriminate G|]. cbn [get] in G. destruct (String.eqb g h) eqn:E; [|right; now apply IH].
      apply String.eqb_eq in E. subst. now left. }
    specialize (H1 _ H). cbn [snd] in H1. intros J. rewrite forallb_forall in H1. specialize (H1 13 J). discriminate.
  - clear H1. induction ks as [|k ks IH]; constructor; cbn [forallb] in H3; apply andb_prop in H3 as (H3 & H4); [now apply go|now apply IH].
Qed.
