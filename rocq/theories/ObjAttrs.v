(** The attributes of one object: written and read again. *)
From Coq Require Import String List NArith ZArith Bool Lia.
From Coq Require Import ZifyN ZifyNat ZifyBool.
From Verif Require Import Bytes BytesProofs Txt UtfModel UtfProofs StringModel StringSpec StringProofs StringProps NumModel ConvModel ConvProps DmxValProps
  FloatModel FloatProps VecModel VecProps EnumModel DmxModel XmlModel XmlProofs AttrModel AttrProps ObjModel ObjSpec ObjConv.
Import ListNotations.
Open Scope N_scope.
Open Scope list_scope.
Ltac Zify.zify_post_hook ::= idtac.

(** ** Environments *)
Lemma get_put g h v vs : get g (put h v vs) = if String.eqb g h then v else get g vs.
Proof.
  induction vs as [|(k, x) vs IH]; cbn [put get]; [reflexivity|]. destruct (String.eqb h k) eqn:E.
  - apply String.eqb_eq in E. subst k. cbn [get]. destruct (String.eqb g h); reflexivity.
  - cbn [get]. destruct (String.eqb g k) eqn:E2; [|exact IH]. apply String.eqb_eq in E2. subst k.
    destruct (String.eqb g h) eqn:E3; [|reflexivity]. apply String.eqb_eq in E3. subst h. rewrite String.eqb_refl in E. discriminate.
Qed.
Definition mem (g : string) (l : list string) : bool := existsb (String.eqb g) l.
Lemma mem_in g l : mem g l = true <-> In g l.
Proof.
  unfold mem. rewrite existsb_exists. split.
  - intros (x & I & E). apply String.eqb_eq in E. now subst.
  - intros I. exists g. split; [exact I|apply String.eqb_refl].
Qed.
Lemma same_refl v : same_val v v. Proof. now left. Qed.
Lemma same_flag v b : same_val (VFlag b) v -> v = VFlag b.
Proof. intros [<- | []]. reflexivity. Qed.
Lemma same_kind g n vs vs' : same_val (get g vs) (get g vs') -> kind_is g n vs' = kind_is g n vs.
Proof. unfold kind_is. intros [-> | K]; [reflexivity|]. destruct (get g vs), (get g vs'); try contradiction; reflexivity. Qed.
Lemma same_flagb g vs vs' : same_val (get g vs) (get g vs') -> flag g vs' = flag g vs.
Proof. unfold flag. intros [-> | K]; [reflexivity|]. destruct (get g vs), (get g vs'); try contradiction; reflexivity. Qed.
Lemma same_no_text g vs vs' : same_val (get g vs) (get g vs') -> no_text g vs' = no_text g vs.
Proof. unfold no_text. intros [-> | K]; [reflexivity|]. destruct (get g vs), (get g vs'); try contradiction; reflexivity. Qed.
Lemma same_own c ctx vs vs' : same_env vs vs' -> own_offsets c ctx vs' = own_offsets c ctx vs.
Proof.
  intros E. destruct c; try reflexivity. cbn [own_offsets]. destruct (E "fOffset"%string) as [-> | K]; [reflexivity|].
  destruct (get "fOffset" vs), (get "fOffset" vs'); try contradiction; reflexivity.
Qed.
Lemma reso_1_4 c ctx vs : bytes_1_4 (reso_of c ctx vs).
Proof.
  unfold reso_of, bit_resolution, bytes_1_4. destruct (own_offsets c ctx vs) as (((a, b), u), d).
  destruct (a =? 0), (b =? 0), (u =? 0), (d =? 0); lia.
Qed.

(** ** Tables *)
Definition nonzeros (c : cls) : list string := flat_map (fun p => match w_when p with IfNonZero g => [g] | _ => [] end) (writes c).
Definition uses_reso (k : conv) : bool := match k with KDmx | KHigh => true | _ => false end.
Definition is_channel (c : cls) : bool := match c with CDmxChannel => true | _ => false end.
Definition compat (c : cls) (done : list string) (wh : when) (e : rentry) : bool :=
  let k := r_conv e in
  match wh, r_how e with
  | Always, (Plain | WhenPresent) => true
  | Always, OkTo _ => match k with KOffset => false | _ => true end
  | Always, WhenText => negb (may_be_empty k)
  | Always, NoSlash => is_text k
  | (IfText _ | Deref), Plain => is_text k
  | IfFlag g, PresentTo h => String.eqb g h && match get g (fields c) with VFlag false => true | _ => false end
  | IfFlag g, (OkTo h | OkBoth h) => String.eqb g h && match k with KDouble => true | _ => false end
      && match r_how e with OkBoth _ => mem g done | _ => true end
  | IfEnum g n, WhenEnum h m => String.eqb g h && (n =? m) && mem g done
  | IfNonZero g, WhenText => String.eqb g (r_field e) && match k with KDouble | KSize => true | _ => false end
  | IfFlagElseEmpty g, OkTo h => String.eqb g h && match k, get (r_field e) (fields c) with KUuid, VUuid _ => true | _, _ => false end
  | _, _ => false
  end.
Definition entry_chk (c : cls) (done : list string) (e : rentry) : Prop :=
  mem (r_field e) done = false /\
  match find (fun p => eqb_bytes (w_attr p) (r_attr e)) (writes c) with
  | Some p =>
    w_field p = r_field e /\ w_conv p = r_conv e /\ compat c done (w_when p) e = true
    /\ (mem (r_field e) (nonzeros c) = match w_when p with IfNonZero _ => true | _ => false end)
    /\ (negb (uses_reso (r_conv e)) || negb (is_channel c) || mem "fOffset"%string done) = true
    /\ old_fine (r_conv e) (get (r_field e) (fields c)) = true /\ enum_fine (r_conv e) = true
  | None =>
    match r_how e, r_conv e with Plain, (KText | KDouble) => true | WhenPresent, _ => true | _, _ => false end = true
    /\ mem (r_field e) (map w_field (writes c)) = false /\ mem (r_field e) (flags c) = false
    /\ mem (r_field e) (nonzeros c) = false
  end.
Definition after (done : list string) (e : rentry) : list string := flag_of (r_how e) ++ r_field e :: done.
Fixpoint chk (c : cls) (done : list string) (rs : list rentry) : Prop :=
  match rs with [] => True | e :: rest => entry_chk c done e /\ chk c (after done e) rest end.
Fixpoint distinct (l : list (list N)) : bool :=
  match l with [] => true | a :: rest => negb (existsb (eqb_bytes a) rest) && distinct rest end.
Definition plain_name (a : list N) : bool := forallb (fun x => (x <? 128) && negb (x =? 0) && negb (x =? 13)) a.
Lemma chk_reads c : chk c [] (reads c).
Proof. destruct c; vm_compute; repeat split. Qed.
Lemma chk_writes c : distinct (map w_attr (writes c)) && forallb (fun p => mem (w_field p) (map r_field (reads c))) (writes c)
  && forallb plain_name (map w_attr (writes c)) = true.
Proof. destruct c; vm_compute; reflexivity. Qed.
Lemma distinct_nodup l : distinct l = true -> NoDup l.
Proof.
  induction l as [|a l IH]; intros H; [constructor|]. cbn [distinct] in H. apply andb_prop in H as (H1 & H2). constructor; [|auto].
  intros I. assert (existsb (eqb_bytes a) l = true); [|destruct (existsb (eqb_bytes a) l); discriminate].
  apply existsb_exists. exists a. split; [exact I|apply eqb_bytes_refl].
Qed.
Lemma writes_nodup c : NoDup (map w_attr (writes c)).
Proof. pose proof (chk_writes c) as H. apply andb_prop in H as (H & _). apply andb_prop in H as (H & _). now apply distinct_nodup. Qed.
Lemma writes_read c p : In p (writes c) -> In (w_field p) (map r_field (reads c)).
Proof.
  intros I. pose proof (chk_writes c) as H. apply andb_prop in H as (H & _). apply andb_prop in H as (_ & H). rewrite forallb_forall in H.
  apply mem_in, H, I.
Qed.
Lemma writes_ascii c p : In p (writes c) -> ascii (w_attr p).
Proof.
  intros I. pose proof (chk_writes c) as H. apply andb_prop in H as (_ & H). rewrite forallb_forall in H.
  specialize (H _ (in_map w_attr _ _ I)). unfold plain_name in H. rewrite forallb_forall in H.
  apply Forall_forall. intros x Hx. specialize (H x Hx). lia.
Qed.

(** ** Writing *)
Definition writable (reso : N) (vs : env) (e : wentry) (o : option (list N)) : Prop :=
  match o with
  | None => write_entry reso vs e = Ok None
  | Some b => exists t, write_entry reso vs e = Ok (Some t) /\ bytes_of t = Ok b /\ text_of b = Ok t
  end.
Definition pair_of (e : wentry) (o : option (list N)) : list (list N * list N) :=
  match o with Some b => [(w_attr e, b)] | None => [] end.
Definition pairs (es : list wentry) (os : list (option (list N))) : list (list N * list N) :=
  flat_map (fun x => pair_of (fst x) (snd x)) (combine es os).
Lemma set_attr_new a b attrs : ~ In a (map fst attrs) -> set_attr a b attrs = attrs ++ [(a, b)].
Proof.
  induction attrs as [|(n, x) l IH]; intros H; [reflexivity|]. cbn [set_attr map fst] in *.
  destruct (eqb_bytes n a) eqn:E. { apply eqb_bytes_iff in E. subst. exfalso. apply H. now left. }
  rewrite IH; [reflexivity|]. intros I. apply H. now right.
Qed.
Lemma pairs_names es : forall os a, In a (map fst (pairs es os)) -> In a (map w_attr es).
Proof.
  induction es as [|e es IH]; intros os a I; [destruct I|]. destruct os as [|o os]; [destruct I|].
  unfold pairs in I. cbn [combine flat_map fst snd] in I. fold (pairs es os) in I. rewrite map_app in I. apply in_app_or in I as [I|I].
  - destruct o; [|destruct I]. destruct I as [<- |[]]. now left.
  - right. exact (IH os a I).
Qed.
Lemma write_entries_ok reso vs : forall es os acc, NoDup (map w_attr es) ->
  (forall a, In a (map w_attr es) -> ~ In a (map fst acc)) -> Forall2 (writable reso vs) es os ->
  write_entries reso vs es acc = Ok (acc ++ pairs es os).
Proof.
  induction es as [|e es IH]; intros os acc ND D F; inversion F as [|? o ? os' W F']; subst; clear F.
  { cbn [write_entries]. now rewrite app_nil_r. }
  cbn [write_entries]. inversion ND as [|? ? N1 N2]; subst. unfold pairs. cbn [combine flat_map fst snd]. fold (pairs es os').
  destruct o as [b|]; cbn [writable] in W.
  - destruct W as (t & W & B & _). rewrite W. cbn [bind]. rewrite B. cbn [bind].
    rewrite set_attr_new by (apply D; now left). cbn [pair_of]. rewrite app_assoc. apply IH; [exact N2| |exact F'].
    intros a Ia. rewrite map_app. intros I. apply in_app_or in I as [I|I].
    + exact (D a (or_intror Ia) I).
    + destruct I as [<- |[]]. exact (N1 Ia).
  - rewrite W. cbn [bind pair_of app]. apply IH; [exact N2| |exact F']. intros a Ia. apply D. now right.
Qed.
Lemma get_pairs es : forall os a, NoDup (map w_attr es) -> List.length os = List.length es ->
  (forall e o, In (e, o) (combine es os) -> w_attr e = a -> get_attr a (pairs es os) = o)
  /\ (~ In a (map w_attr es) -> get_attr a (pairs es os) = None).
Proof.
  induction es as [|e es IH]; intros os a ND L; destruct os as [|o os]; try discriminate L; [split; [intros ? ? []|reflexivity]|].
  injection L as L. inversion ND as [|? ? N1 N2]; subst. unfold pairs. cbn [combine flat_map fst snd]. fold (pairs es os).
  destruct (IH os a N2 L) as (G1 & G2). split.
  - intros e0 o0 [E|I] Ea.
    + injection E as -> ->. subst a. destruct o0 as [b|]; cbn [pair_of app get_attr]; [now rewrite eqb_bytes_refl|]. exact (G2 N1).
    + assert (Ne : w_attr e <> a). { intros E. apply N1. rewrite E, <- Ea. apply in_map. exact (in_combine_l _ _ _ _ I). }
      assert (eqb_bytes (w_attr e) a = false). { destruct (eqb_bytes (w_attr e) a) eqn:X; [|reflexivity]. now apply eqb_bytes_iff in X. }
      destruct o as [b|]; cbn [pair_of app get_attr]; [rewrite H|]; exact (G1 e0 o0 I Ea).
  - intros H. assert (eqb_bytes (w_attr e) a = false).
    { destruct (eqb_bytes (w_attr e) a) eqn:X; [|reflexivity]. apply eqb_bytes_iff in X. exfalso. apply H. now left. }
    assert (Hr : ~ In a (map w_attr es)) by (intros I; apply H; now right).
    destruct o as [b|]; cbn [pair_of app get_attr]; [rewrite H0|]; exact (G2 Hr).
Qed.

Lemma length2 {A B} (P : A -> B -> Prop) a b : Forall2 P a b -> List.length a = List.length b.
Proof. induction 1 as [|x y l m _ _ IH]; [reflexivity|]. cbn [List.length]. now rewrite IH. Qed.

(** ** One class *)
Section Class.
Variable c : cls.
Variable ctx : offsets.
Variable vs : env.
Hypothesis OKA : attrs_ok c ctx vs.
Let R := reso_of c ctx vs.

Definition default (g : string) : val := get g (fields c).
(** The entries that are written, with what stands in the file. *)
Lemma entry_default e : In e (writes c) -> exists old, In e (writes c) /\ old = default (w_field e).
Proof. eauto. Qed.
Lemma find_entry e : In e (writes c) -> find (fun p => eqb_bytes (w_attr p) (w_attr e)) (writes c) = Some e.
Proof.
  pose proof (writes_nodup c) as ND. induction (writes c) as [|p l IH]; intros I; [destruct I|]. cbn [find]. inversion ND as [|? ? N1 N2]; subst.
  destruct I as [-> |I]; [now rewrite eqb_bytes_refl|].
  destruct (eqb_bytes (w_attr p) (w_attr e)) eqn:E; [|auto]. apply eqb_bytes_iff in E. exfalso. apply N1. rewrite E. now apply in_map.
Qed.
Lemma find_in a p : find (fun p => eqb_bytes (w_attr p) a) (writes c) = Some p -> In p (writes c) /\ w_attr p = a.
Proof. intros F. apply List.find_some in F as (I & E). apply eqb_bytes_iff in E. now split. Qed.

(** What is shown in full. *)
Lemma shown_entry p old : In p (writes c) -> shown vs p = true -> old_fine (w_conv p) old = true -> enum_fine (w_conv p) = true ->
  match w_when p with IfNonZero g => String.eqb g (w_field p) && match w_conv p with KDouble | KSize => true | _ => false end | _ => true end = true ->
  exists t b v' ok, write_entry R vs p = Ok (Some t) /\ bytes_of t = Ok b /\ text_of b = Ok t
    /\ read_conv (w_conv p) R old t = Ok (v', ok, 0) /\ same_val (get (w_field p) vs) v' /\ (w_conv p <> KOffset -> ok = true)
    /\ (may_be_empty (w_conv p) = false -> t <> [])
    /\ (match w_when p with IfNonZero _ => is_zero v' = false | _ => True end).
Proof.
  intros I S OF EF NZ. destruct OKA as (A1 & _ & _). specialize (A1 p I). rewrite S in A1. destruct A1 as (V & X & _).
  destruct (conv_roundtrip (w_conv p) R _ old (reso_1_4 c ctx vs) V OF EF) as (t & v' & ok & W & Rd & Sm & Ok1 & G & Ne).
  destruct (good_bytes t G) as (b & B & Tx). exists t, b, v', ok.
  split.
  { unfold write_entry. rewrite W. cbn [bind]. unfold shown in S. destruct (w_when p) as [|g|g|g n|g|g|] eqn:Ew; try reflexivity.
    - destruct (no_text g vs); [discriminate|reflexivity].
    - rewrite S. reflexivity.
    - rewrite S. reflexivity.
    - apply andb_prop in NZ as (E & NZ). apply String.eqb_eq in E. subst g. destruct (is_zero (get (w_field p) vs)) eqn:Z; [discriminate|].
      destruct (get (w_field p) vs) eqn:Eg; try (rewrite Z; reflexivity). exfalso. destruct (w_conv p); exact V.
    - rewrite S. reflexivity.
    - rewrite X. reflexivity. }
  split; [exact B|]. split; [exact Tx|]. split; [exact Rd|]. split; [exact Sm|]. split; [exact Ok1|]. split; [exact Ne|].
  destruct (w_when p) as [|g|g|g n|g|g|] eqn:Ew; try exact Logic.I. apply andb_prop in NZ as (E & NZ). apply String.eqb_eq in E. subst g.
  unfold shown in S. rewrite Ew in S. destruct Sm as [<- |Sm]; [destruct (is_zero (get (w_field p) vs)); [discriminate|reflexivity]|].
  destruct (get (w_field p) vs) as [| x | | | | | | | | | | | |] eqn:Eg, v' as [| x' | | | | | | | | | | | |]; try contradiction; try reflexivity.
  destruct (is_zero (VDbl x')) eqn:Z; [|reflexivity]. exfalso. apply X. cbn [looks_zero]. change point with 46. rewrite <- (kept_text _ _ Sm).
  destruct x' as [neg [|u]| |]; try discriminate. destruct neg; [now right|now left].
Qed.
(** What is not. *)
Lemma hidden_entry p : In p (writes c) -> shown vs p = false ->
  write_entry R vs p = match w_when p with IfFlagElseEmpty _ => Ok (Some []) | _ => Ok None end.
Proof.
  intros I S. unfold write_entry. unfold shown in S. destruct (w_when p) as [|g|g|g n|g|g|] eqn:Ew; try discriminate S.
  - destruct (no_text g vs); [reflexivity|discriminate].
  - rewrite S. reflexivity.
  - rewrite S. reflexivity.
  - destruct (is_zero (get g vs)) eqn:Z; [|discriminate]. destruct (get g vs); try discriminate; rewrite Z; reflexivity.
  - rewrite S. reflexivity.
Qed.

(** ** Reading *)
Definition close (g : string) (v v' : val) : Prop := same_val v v' /\ (mem g (nonzeros c) = true -> is_zero v' = is_zero v).
Definition Inv (done : list string) (st : env) : Prop :=
  forall g, if mem g done then close g (get g vs) (get g st) else get g st = default g.
Lemma inv_put done st g v : Inv done st -> close g (get g vs) v -> Inv (g :: done) (put g v st).
Proof.
  intros H C h. cbn [mem existsb]. fold (mem h done). rewrite get_put. destruct (String.eqb h g) eqn:E; cbn [orb].
  - apply String.eqb_eq in E. subst h. exact C.
  - exact (H h).
Qed.
Lemma inv_skip done st g : Inv done st -> get g st = get g vs -> Inv (g :: done) st.
Proof.
  intros H C h. cbn [mem existsb]. fold (mem h done). destruct (String.eqb h g) eqn:E; cbn [orb].
  - apply String.eqb_eq in E. subst h. rewrite C. split; [apply same_refl|reflexivity].
  - exact (H h).
Qed.
Lemma close_refl g v : close g v v. Proof. split; [apply same_refl|reflexivity]. Qed.
Lemma inv_same done st g : Inv done st -> mem g done = true -> same_val (get g vs) (get g st).
Proof. intros H M. specialize (H g). rewrite M in H. apply H. Qed.
Lemma inv_default done st g : Inv done st -> mem g done = false -> get g st = default g.
Proof. intros H M. specialize (H g). rewrite M in H. exact H. Qed.

Variable os : list (option (list N)).
Hypothesis WOS : Forall2 (writable R vs) (writes c) os.
Let attrs := pairs (writes c) os.

Lemma attr_of p : In p (writes c) -> exists o, writable R vs p o /\ get_attr (w_attr p) attrs = o.
Proof.
  intros I. assert (L : List.length os = List.length (writes c)) by (symmetry; exact (length2 _ _ _ WOS)).
  destruct (get_pairs (writes c) os (w_attr p) (writes_nodup c) L) as (G & _).
  assert (E : exists o, In (p, o) (combine (writes c) os) /\ writable R vs p o).
  { clear G L attrs. revert I. induction WOS as [|e o es os' W F IH]; intros I; [destruct I|]. destruct I as [-> |I].
    - exists o. split; [now left|exact W].
    - destruct (IH F I) as (o' & I' & W'). exists o'. split; [now right|exact W']. }
  destruct E as (o & I' & W). exists o. split; [exact W|]. exact (G p o I' eq_refl).
Qed.
Lemma attr_none a : ~ In a (map w_attr (writes c)) -> get_attr a attrs = None.
Proof.
  intros H. assert (L : List.length os = List.length (writes c)) by (symmetry; exact (length2 _ _ _ WOS)).
  apply (get_pairs (writes c) os a (writes_nodup c) L), H.
Qed.
Lemma reso_st done st : Inv done st -> is_channel c = false \/ mem "fOffset"%string done = true -> reso_of c ctx st = R.
Proof.
  intros H D. unfold R, reso_of. f_equal. destruct c; try reflexivity. destruct D as [D|D]; [discriminate|].
  cbn [own_offsets]. destruct (inv_same _ _ _ H D) as [-> |K]; [reflexivity|].
  destruct (get "fOffset" vs), (get "fOffset" st); try contradiction; reflexivity.
Qed.
Lemma reso_free k r1 r2 old s : uses_reso k = false -> read_conv k r1 old s = read_conv k r2 old s.
Proof. destruct k; intros H; try discriminate; reflexivity. Qed.
Lemma no_slash_id s : ~ In 47 s -> no_slash s = Ok s.
Proof.
  intros H. unfold no_slash, replace. destruct (replace_loop_ok (T"/") (T"_") ltac:(discriminate) (S (List.length s)) [] s ltac:(lia)) as (x & E & P).
  cbn [app] in E. change (nlen []) with 0 in E. rewrite E. inversion P as [|a m b r' Hm _ _]; subst; [reflexivity|].
  exfalso. apply H. rewrite !map_id in Hm. subst m. apply in_or_app. right. now left.
Qed.

Ltac solve_step := cbn [after flag_of app]; try reflexivity.
Lemma read_step done st n e : In e (reads c) -> entry_chk c done e -> Inv done st ->
  exists st', read_entry (reso_of c ctx) attrs e (st, n) = Ok (st', n) /\ Inv (after done e) st'.
Proof.
  intros Ie (Fr & K) HI. destruct OKA as (A1 & A2 & A3).
  assert (OLD : get (r_field e) st = default (r_field e)) by exact (inv_default _ _ _ HI Fr).
  destruct (find (fun p => eqb_bytes (w_attr p) (r_attr e)) (writes c)) as [p|] eqn:F.
  - apply find_in in F as (Ip & Ea). destruct K as (Ef & Ec & Cm & Nz & Rs & Of & En). rewrite <- Ef, <- Ec in *.
    destruct (attr_of p Ip) as (o & W & Ga). rewrite Ea in Ga.
    assert (FL : forall g, In g (flag_of (r_how e)) -> get g vs = VFlag (shown vs p)).
    { intros g Hg. exact (A2 p e g Ip Ie Ea Hg). }
    assert (RS : forall s, read_conv (w_conv p) (reso_of c ctx st) (get (w_field p) st) s = read_conv (w_conv p) R (default (w_field p)) s).
    { intros s. rewrite OLD. destruct (uses_reso (w_conv p)) eqn:U; [|apply reso_free; exact U].
      rewrite (reso_st done st HI); [reflexivity|]. destruct (is_channel c); [right|now left]. destruct (mem "fOffset" done); [reflexivity|discriminate Rs]. }
    destruct (shown vs p) eqn:S.
    + assert (NZ : match w_when p with IfNonZero g => String.eqb g (w_field p) && match w_conv p with KDouble | KSize => true | _ => false end | _ => true end = true).
      { destruct (w_when p) eqn:Ew; try reflexivity. unfold compat in Cm. rewrite <- Ef, <- Ec in Cm. destruct (r_how e); try discriminate Cm. exact Cm. }
      destruct (shown_entry p (default (w_field p)) Ip S Of En NZ) as (t & b & v' & ok & We & B & Tx & Rd & Sm & Ok1 & Ne & Zr).
      assert (E : o = Some b).
      { destruct o as [b'|]; cbn [writable] in W; [destruct W as (t' & W & B' & _)|]; rewrite We in W; [|discriminate]. congruence. }
      assert (CL : close (w_field p) (get (w_field p) vs) v').
      { split; [exact Sm|]. intros M. rewrite Nz in M. unfold shown in S. destruct (w_when p) eqn:Ew; try discriminate M.
        apply andb_prop in NZ as (E0 & _). apply String.eqb_eq in E0. subst. rewrite Zr. destruct (is_zero (get (w_field p) vs)); [discriminate|reflexivity]. }
      unfold read_entry, attr_text. rewrite Ga, E, Tx. cbn [bind]. rewrite <- Ef, <- Ec. rewrite RS, Rd. cbn [bind]. rewrite N.add_0_r.
      unfold after. rewrite <- Ef. unfold compat in Cm. rewrite <- Ec in Cm.
      destruct (r_how e) as [| | |g|g|g|g m|] eqn:Eh; cbn [flag_of app].
      * eexists. split; [reflexivity|]. now apply inv_put.
      * eexists. split; [reflexivity|]. now apply inv_put.
      * assert (Nt : t <> []).
        { apply Ne. destruct (w_when p); try discriminate Cm; [destruct (may_be_empty (w_conv p)); [discriminate|reflexivity]|].
          apply andb_prop in Cm as (_ & Cm). destruct (w_conv p); try discriminate; reflexivity. }
        destruct t as [|t0 t]; [congruence|]. eexists. split; [reflexivity|]. now apply inv_put.
      * eexists. split; [reflexivity|]. apply inv_put; [now apply inv_put|]. rewrite (FL g ltac:(now left)). apply close_refl.
      * eexists. split; [reflexivity|]. apply inv_put; [now apply inv_put|]. rewrite (FL g ltac:(now left)).
        assert (ok = true) as -> by (apply Ok1; intros X; rewrite X in Cm; destruct (w_when p); try discriminate Cm; destruct (String.eqb f g); discriminate Cm).
        apply close_refl.
      * assert (M : mem g done = true /\ w_conv p = KDouble).
        { destruct (w_when p); try discriminate Cm. apply andb_prop in Cm as (Cm & M). apply andb_prop in Cm as (Cm & D).
          apply String.eqb_eq in Cm. subst. split; [exact M|]. destruct (w_conv p); try discriminate D; reflexivity. }
        destruct M as (M & D). eexists. split; [reflexivity|].
        assert (G2 : get g st = VFlag true) by (apply same_flag; rewrite <- (FL g ltac:(now left)); exact (inv_same _ _ _ HI M)).
        assert (flag g (put (w_field p) v' st) = true) as ->.
        { unfold flag. rewrite get_put. destruct (String.eqb g (w_field p)) eqn:X; [|now rewrite G2].
          apply String.eqb_eq in X. subst g. rewrite Ef in M. congruence. }
        apply inv_put; [now apply inv_put|]. rewrite (FL g ltac:(now left)).
        rewrite (Ok1 ltac:(rewrite D; discriminate)). apply close_refl.
      * assert (M : mem g done = true /\ kind_is g m vs = true).
        { unfold shown in S. destruct (w_when p); try discriminate Cm. apply andb_prop in Cm as (Cm & M). apply andb_prop in Cm as (Cm & D).
          apply String.eqb_eq in Cm. apply N.eqb_eq in D. subst. now split. }
        destruct M as (M & D). rewrite (same_kind g m vs st (inv_same _ _ _ HI M)), D. eexists. split; [reflexivity|]. now apply inv_put.
      * assert (D : w_conv p = KText) by (destruct (w_when p); try discriminate Cm; destruct (w_conv p); try discriminate Cm; reflexivity).
        specialize (A1 p Ip). rewrite S in A1. destruct A1 as (V & _ & X). specialize (X e Ie Eh (eq_sym Ef)).
        rewrite D in *. destruct (get (w_field p) vs) as [s0| | | | | | | | | | | | |] eqn:Eg; try contradiction.
        assert (t = s0).
        { unfold write_entry in We. rewrite D, Eg in We. cbn [write_conv bind] in We.
          destruct (w_when p); try discriminate Cm. congruence. }
        subst t. rewrite (no_slash_id s0 X). cbn [bind]. eexists. split; [reflexivity|]. apply inv_put; [exact HI|]. rewrite Eg. apply close_refl.
    + pose proof (hidden_entry p Ip S) as We. specialize (A1 p Ip). rewrite S in A1.
      assert (ST : get (w_field p) st = get (w_field p) vs) by (rewrite OLD, A1; reflexivity).
      assert (CL : close (w_field p) (get (w_field p) vs) (default (w_field p))) by (rewrite A1; apply close_refl).
      unfold compat in Cm. rewrite <- Ec, <- Ef in Cm. unfold read_entry, attr_text. rewrite Ga. unfold after. rewrite <- Ef, <- Ec.
      assert (GS : forall g, In g (flag_of (r_how e)) -> get g vs = VFlag false) by exact FL.
      destruct (w_when p) as [|g|g|g m|g|g|] eqn:Ew; try (unfold shown in S; rewrite Ew in S; discriminate S).
      * assert (E : o = None) by (destruct o as [b|]; [cbn [writable] in W; destruct W as (t & W & _); rewrite We in W; discriminate|reflexivity]).
        rewrite E. cbn [bind]. destruct (r_how e); try discriminate Cm. rewrite Cm. eexists. split; [reflexivity|]. now apply inv_skip.
      * assert (E : o = None) by (destruct o as [b|]; [cbn [writable] in W; destruct W as (t & W & _); rewrite We in W; discriminate|reflexivity]).
        rewrite E. cbn [bind]. destruct (r_how e) as [| | |h|h|h|h m|] eqn:Eh; try discriminate Cm; cbn [flag_of app].
        -- apply andb_prop in Cm as (Cm & D). apply String.eqb_eq in Cm. subst h. eexists. split; [reflexivity|].
           apply inv_skip; [now apply inv_skip|]. specialize (GS g ltac:(now left)). rewrite GS. destruct (mem g done) eqn:M.
           ++ apply same_flag. rewrite <- GS. exact (inv_same _ _ _ HI M).
           ++ rewrite (inv_default _ _ _ HI M). unfold default. destruct (get g (fields c)) as [| | | |[|]| | | | | | | | |]; try discriminate D. reflexivity.
        -- apply andb_prop in Cm as (Cm & _). apply andb_prop in Cm as (Cm & D). apply String.eqb_eq in Cm. subst h.
           rewrite RS. destruct (w_conv p); try discriminate D. cbn [read_conv is_empty bind result]. unfold result. cbn [bind]. rewrite N.add_0_r.
           eexists. split; [reflexivity|]. apply inv_put; [now apply inv_put|]. rewrite (GS g ltac:(now left)). apply close_refl.
        -- apply andb_prop in Cm as (Cm & M). apply andb_prop in Cm as (Cm & D). apply String.eqb_eq in Cm. subst h.
           rewrite RS. destruct (w_conv p); try discriminate D. cbn [read_conv is_empty bind result]. unfold result. cbn [bind]. rewrite N.add_0_r.
           eexists. split; [reflexivity|]. rewrite andb_false_r. apply inv_put; [now apply inv_put|]. rewrite (GS g ltac:(now left)). apply close_refl.
      * assert (E : o = None) by (destruct o as [b|]; [cbn [writable] in W; destruct W as (t & W & _); rewrite We in W; discriminate|reflexivity]).
        rewrite E. cbn [bind]. destruct (r_how e) as [| | |h|h|h|h m'|] eqn:Eh; try discriminate Cm; cbn [flag_of app].
        apply andb_prop in Cm as (Cm & M). apply andb_prop in Cm as (Cm & D). apply String.eqb_eq in Cm. apply N.eqb_eq in D. subst.
        unfold shown in S. rewrite Ew in S. rewrite (same_kind h m' vs st (inv_same _ _ _ HI M)), S. eexists. split; [reflexivity|]. now apply inv_skip.
      * assert (E : o = None) by (destruct o as [b|]; [cbn [writable] in W; destruct W as (t & W & _); rewrite We in W; discriminate|reflexivity]).
        rewrite E. cbn [bind]. destruct (r_how e) as [| | |h|h|h|h m'|] eqn:Eh; try discriminate Cm; cbn [flag_of app].
        eexists. split; [reflexivity|]. now apply inv_skip.
      * assert (E : o = Some []).
        { destruct o as [b|]; cbn [writable] in W; [destruct W as (t & W & B & _)|]; rewrite We in W; [|discriminate]. injection W as <-. injection B as <-. reflexivity. }
        rewrite E. change (text_of []) with (@Ok (list N) []). cbn [bind].
        destruct (r_how e) as [| | |h|h|h|h m'|] eqn:Eh; try discriminate Cm; cbn [flag_of app].
        apply andb_prop in Cm as (Cm & D). apply String.eqb_eq in Cm. subst h. rewrite RS. destruct (w_conv p); try discriminate D.
        unfold default. unfold default in CL. destruct (get (w_field p) (fields c)) as [| | | | | | | | | |u| | |]; try discriminate D.
        cbn [read_conv as_uuid]. assert (read_uuid u [] = Ok (mkRd u false 0)) as -> by reflexivity. cbn [bind]. unfold got, result. cbn [bind rd_val rd_ok rd_errs].
        rewrite N.add_0_r. eexists. split; [reflexivity|]. apply inv_put; [now apply inv_put|]. rewrite (GS g ltac:(now left)). apply close_refl.
  - destruct K as (Hw & M1 & M2 & M3).
    assert (Ga : get_attr (r_attr e) attrs = None).
    { apply attr_none. intros I. apply in_map_iff in I as (p & Ep & Ip).
      apply (List.find_none _ _ F) in Ip. rewrite Ep, eqb_bytes_refl in Ip. discriminate. }
    assert (V : get (r_field e) vs = default (r_field e)).
    { apply A3; intros I; apply mem_in in I; congruence. }
    unfold read_entry, attr_text. rewrite Ga. cbn [bind]. unfold after.
    destruct (r_how e) eqn:Eh; try discriminate Hw; cbn [flag_of app].
    + destruct (r_conv e); try discriminate Hw; cbn [is_text].
      * eexists. split; [reflexivity|]. apply inv_skip; [exact HI|congruence].
      * cbn [read_conv is_empty]. unfold result. cbn [bind]. rewrite N.add_0_r. eexists. split; [reflexivity|].
        apply inv_put; [exact HI|]. rewrite OLD, V. apply close_refl.
    + eexists. split; [reflexivity|]. apply inv_skip; [exact HI|congruence].
Qed.
Lemma read_all_entries : forall rs done st n, (forall e, In e rs -> In e (reads c)) -> chk c done rs -> Inv done st ->
  exists st', read_entries (reso_of c ctx) attrs rs (st, n) = Ok (st', n) /\ Inv (fold_left after rs done) st'.
Proof.
  induction rs as [|e rs IH]; intros done st n Hi Hc H; [eexists; split; [reflexivity|exact H]|].
  destruct Hc as (H1 & H2). destruct (read_step done st n e (Hi e ltac:(now left)) H1 H) as (st1 & E1 & I1).
  cbn [read_entries]. rewrite E1. cbn [bind fold_left]. apply IH; [|exact H2|exact I1]. intros x Hx. apply Hi. now right.
Qed.
Lemma after_all : forall rs done g, In g (fold_left after rs done) -> In g done \/ In g (map r_field rs) \/ In g (flat_map (fun e => flag_of (r_how e)) rs).
Proof.
  induction rs as [|e rs IH]; intros done g I; [now left|]. cbn [fold_left] in I. apply IH in I as [I|[I|I]].
  - unfold after in I. apply in_app_or in I as [I|[<- |I]].
    + right. right. cbn [flat_map]. apply in_or_app. now left.
    + right. left. now left.
    + now left.
  - right. left. now right.
  - right. right. cbn [flat_map]. apply in_or_app. now right.
Qed.
Lemma all_after : forall rs done g, In g done \/ In g (map r_field rs) \/ In g (flat_map (fun e => flag_of (r_how e)) rs) -> In g (fold_left after rs done).
Proof.
  induction rs as [|e rs IH]; intros done g I; [destruct I as [I|[[]|[]]]; exact I|]. cbn [fold_left]. apply IH. unfold after.
  destruct I as [I|[[<- |I]|I]].
  - left. apply in_or_app. right. now right.
  - left. apply in_or_app. right. now left.
  - right. now left.
  - cbn [flat_map] in I. apply in_app_or in I as [I|I]; [|now right; right]. left. apply in_or_app. now left.
Qed.
Lemma read_back : exists st, read_entries (reso_of c ctx) attrs (reads c) (fields c, 0) = Ok (st, 0)
  /\ same_env vs st /\ forall g, In g (nonzeros c) -> is_zero (get g st) = is_zero (get g vs).
Proof.
  destruct (read_all_entries (reads c) [] (fields c) 0 ltac:(auto) (chk_reads c)) as (st & E & HI); [intros g; reflexivity|].
  exists st. split; [exact E|].
  assert (G : forall g, close g (get g vs) (get g st)).
  { intros g. specialize (HI g). destruct (mem g (fold_left after (reads c) [])) eqn:M; [exact HI|].
    rewrite HI. destruct OKA as (_ & _ & A3). unfold default. rewrite (A3 g).
    - apply close_refl.
    - intros I. apply in_map_iff in I as (p & <- & Ip). apply writes_read in Ip.
      assert (X : mem (w_field p) (fold_left after (reads c) []) = true) by (apply mem_in, all_after; now right; left). congruence.
    - intros I. assert (X : mem g (fold_left after (reads c) []) = true) by (apply mem_in, all_after; now right; right). congruence. }
  split; [intros g; apply G|]. intros g I. apply G. now apply mem_in.
Qed.
Lemma write_again st : same_env vs st -> (forall g, In g (nonzeros c) -> is_zero (get g st) = is_zero (get g vs)) ->
  Forall2 (writable (reso_of c ctx st) st) (writes c) os.
Proof.
  intros E Z. assert (ER : reso_of c ctx st = R) by (unfold R, reso_of; now rewrite (same_own c ctx vs st E)). rewrite ER.
  assert (W : forall p, In p (writes c) -> write_entry R st p = write_entry R vs p).
  { intros p Ip. unfold write_entry. rewrite (same_write (w_conv p) R _ _ (E (w_field p))). destruct (w_when p) as [|g|g|g m|g|g|] eqn:Ew; try reflexivity.
    - now rewrite (same_no_text g vs st (E g)).
    - now rewrite (same_flagb g vs st (E g)).
    - now rewrite (same_kind g m vs st (E g)).
    - assert (Ig : In g (nonzeros c)) by (apply in_flat_map; exists p; split; [exact Ip|]; rewrite Ew; now left).
      specialize (Z g Ig). destruct (E g) as [<- |K]; [reflexivity|].
      destruct (get g vs), (get g st); try contradiction; rewrite Z; reflexivity.
    - now rewrite (same_flagb g vs st (E g)).
    - now rewrite (same_no_text _ vs st (E _)). }
  clear attrs. induction WOS as [|p o es os' Wp F IH]; constructor.
  - unfold writable in *. rewrite (W p (or_introl eq_refl)). exact Wp.
  - apply (IH F). intros q Iq. apply W. now right.
Qed.
End Class.

(** There is always a text for every attribute. *)
Definition fine_old (k : conv) : val :=
  match k with KColors => VVecs [] | KRotation => VMat identity | KHigh => VDmx false 0 | _ => VUnset end.
Lemma entry_fine c : forallb (fun p => enum_fine (w_conv p) &&
  match w_when p with IfNonZero g => String.eqb g (w_field p) && match w_conv p with KDouble | KSize => true | _ => false end | _ => true end) (writes c) = true.
Proof. destruct c; vm_compute; reflexivity. Qed.
Lemma written c ctx vs : attrs_ok c ctx vs -> exists os, Forall2 (writable (reso_of c ctx vs) vs) (writes c) os.
Proof.
  intros A. assert (W : forall p, In p (writes c) -> exists o, writable (reso_of c ctx vs) vs p o).
  { intros p Ip. pose proof (entry_fine c) as F. rewrite forallb_forall in F. specialize (F p Ip). apply andb_prop in F as (F & NZ).
    destruct (shown vs p) eqn:S.
    - destruct (shown_entry c ctx vs A p (fine_old (w_conv p)) Ip S ltac:(destruct (w_conv p); reflexivity) F NZ) as (t & b & v' & ok & We & B & Tx & _).
      exists (Some b). exists t. now split.
    - pose proof (hidden_entry c ctx vs p Ip S) as We. destruct (w_when p); [exists None; exact We..|exists (Some []); exists []; now split|exists None; exact We]. }
  induction (writes c) as [|p es IH]; [exists []; constructor|]. destruct (W p ltac:(now left)) as (o & Wo).
  destruct IH as (os & F). { intros q Iq. apply W. now right. }
  exists (o :: os). now constructor.
Qed.
Lemma pairs_present c ctx vs os : attrs_ok c ctx vs -> Forall2 (writable (reso_of c ctx vs) vs) (writes c) os ->
  map fst (pairs (writes c) os) = map w_attr (filter (present vs) (writes c)).
Proof.
  intros A F. assert (G : forall p o, In p (writes c) -> writable (reso_of c ctx vs) vs p o -> pair_of p o = match o with Some b => [(w_attr p, b)] | None => [] end
    /\ (o = None <-> present vs p = false)).
  { intros p o Ip W. split; [reflexivity|]. unfold present. destruct (shown vs p) eqn:S.
    - cbn [orb]. split; [intros ->|discriminate]. cbn [writable] in W. exfalso.
      pose proof (entry_fine c) as X. rewrite forallb_forall in X. specialize (X p Ip). apply andb_prop in X as (X & NZ).
      destruct (shown_entry c ctx vs A p (fine_old (w_conv p)) Ip S ltac:(destruct (w_conv p); reflexivity) X NZ) as (t & b & v' & ok & We & _).
      rewrite We in W. discriminate.
    - cbn [orb]. pose proof (hidden_entry c ctx vs p Ip S) as We. destruct o as [b|]; cbn [writable] in W.
      + destruct W as (t & W & _). rewrite We in W. destruct (w_when p); try discriminate W. split; discriminate.
      + rewrite We in W. destruct (w_when p); try discriminate W; split; reflexivity. }
  clear A. revert G. induction F as [|p o es os W F IH]; intros G; [reflexivity|].
  unfold pairs. cbn [combine flat_map fst snd]. fold (pairs es os). rewrite map_app, IH by (intros q o' Iq; apply G; now right).
  destruct (G p o (or_introl eq_refl) W) as (_ & N0). cbn [filter]. destruct o as [b|]; cbn [pair_of].
  - destruct (present vs p); [reflexivity|]. destruct N0 as (_ & N0). discriminate (N0 eq_refl).
  - destruct N0 as (N0 & _). rewrite (N0 eq_refl). reflexivity.
Qed.
