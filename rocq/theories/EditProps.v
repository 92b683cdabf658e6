(** C103: the references to channels and functions that are written after a mode has been edited.  C104: the
    names that reading gives to functions without one. *)
From Coq Require Import String List NArith ZArith Bool Lia.
From Coq Require Import ZifyN ZifyNat ZifyBool.
From Verif Require Import Bytes Txt StringModel StringProofs StringProps NumModel NumProofs LookupModel LookupProps EditModel.
Import ListNotations.
Open Scope N_scope.
Open Scope list_scope.
Ltac Zify.zify_post_hook ::= idtac.

(** ** Specification *)
(** What the file has for a mode, as it is read: only the present geometries, attributes and names of functions.
    A channel is identified by its place, a function by the places of channel, logical channel and function. *)
Definition places {A B} (f : nat -> A -> B) (l : list A) : list B := map (fun p => f (fst p) (snd p)) (combine (seq 0 (List.length l)) l).
Definition as_read (m : mode) : list (@channel (list nat)) :=
  places (fun c x => mkCh [] (option_map (geo_name m) (ch_geo x))
    (places (fun l y => mkLog (option_map (attr_name m) (lc_attr y))
      (places (fun i f => mkFunc (fn_name f) (option_map (attr_name m) (fn_attr f)) [c; l; i]) (lc_fns y))) (ch_lcs x)) [c]) (chans m).
(** The name of a channel, and the references, by the present names. *)
Definition right_name (m : mode) (x : ch) : list N :=
  named (geo_name m) (ch_geo x) ++ T"_" ++ match ch_lcs x with [] => [] | l :: _ => named (attr_name m) (lc_attr l) end.
Definition right_fun (m : mode) (i : nat) (f : fn) : list N :=
  match fn_name f with [] => match fn_attr f with Some a => attr_name m a ++ T" " ++ itoa (Z.of_nat (S i)) | None => [] end | t => t end.
Definition right (m : mode) (c : nat) (w : what) : list N :=
  match nth_error (chans m) c with
  | None => []
  | Some x => match w with
    | TheChannel => right_name m x
    | TheLogical l => match nth_error (ch_lcs x) l with None => [] | Some y => right_name m x ++ T"." ++ named (attr_name m) (lc_attr y) end
    | TheFunction l i => match nth_error (ch_lcs x) l with
      | None => []
      | Some y => match nth_error (lc_fns y) i with None => [] | Some f => right_name m x ++ T"." ++ named (attr_name m) (lc_attr y) ++ T"." ++ right_fun m i f end
      end
    end
  end.
(** No name has been formed; no name formed is out of date. *)
Definition fresh (m : mode) : Prop := forall x, In x (chans m) -> ch_kept x = [] /\ forall l, In l (ch_lcs x) -> lc_kept l = [].
Definition current (m : mode) : Prop := forall x, In x (chans m) ->
  (ch_kept x = [] \/ ch_kept x = right_name m x) /\ forall l, In l (ch_lcs x) -> lc_kept l = [] \/ lc_kept l = named (attr_name m) (lc_attr l).
Definition edit (o : op) : Prop := match o with Ask _ _ | Generate => False | _ => True end.
Definition ask (q : nat * what) : op := Ask (fst q) (snd q).

(** ** Lemmas *)
Lemma Ok_inj {A} (a b : A) : Ok a = Ok b -> a = b. Proof. now intros [= ->]. Qed.
Lemma nth_upd {A} (f : A -> A) : forall l i j, nth_error (upd i f l) j = if (i =? j)%nat then option_map f (nth_error l j) else nth_error l j.
Proof. induction l as [|x l IH]; intros [|i] [|j]; cbn; try reflexivity; try apply IH. now destruct (i =? j)%nat. Qed.
Lemma in_upd {A} (f : A -> A) : forall l i y, In y (upd i f l) -> In y l \/ exists x, In x l /\ y = f x.
Proof.
  induction l as [|x l IH]; intros [|i] y H; cbn in H; try contradiction.
  - destruct H as [<- |H]; [right; exists x; cbn; auto|left; now right].
  - destruct H as [<- |H]; [left; now left|]. destruct (IH _ _ H) as [J|(z & J & E)]; [left; now right|right; exists z; cbn; auto].
Qed.
Lemma upd_nil {A} (f : A -> A) i l : upd i f l = [] <-> l = [].
Proof. destruct l, i; cbn; split; congruence. Qed.
Lemma edits_fresh m o m' a : fresh m -> edit o -> step o m = Ok (m', a) -> fresh m' /\ a = [].
Proof.
  assert (CH : forall c f m, fresh m -> (forall x, ch_kept x = [] -> (forall l, In l (ch_lcs x) -> lc_kept l = []) -> ch_kept (f x) = [] /\ forall l, In l (ch_lcs (f x)) -> lc_kept l = []) -> fresh (in_chan c f m)).
  { intros c f m0 F H x I. cbn [in_chan chans] in I. apply in_upd in I as [I|(y & I & ->)]; [now apply F|]. destruct (F y I). now apply H. }
  assert (LG : forall c l f m, fresh m -> (forall x, lc_kept x = [] -> lc_kept (f x) = []) -> fresh (in_log c l f m)).
  { intros c l f m0 F H. apply CH; [exact F|]. intros x K L. cbn [ch_kept ch_lcs]. split; [exact K|]. intros y I. apply in_upd in I as [I|(z & I & ->)]; auto. }
  intros F E. destruct o; cbn [step edit] in *; try contradiction; intros H; apply Ok_inj in H; injection H as <- <-; (split; [|reflexivity]).
  - intros x I. cbn [chans] in I. apply in_app_iff in I as [I|[<- |[]]]; [now apply F|]. cbn. split; [reflexivity|intros ? []].
  - apply CH; [exact F|]. intros x K L. cbn. auto.
  - apply CH; [exact F|]. intros x K L. cbn [ch_kept ch_lcs]. split; [exact K|]. intros y I. apply in_app_iff in I as [I|[<- |[]]]; auto.
  - apply LG; [exact F|]. intros x K. exact K.
  - apply LG; [exact F|]. intros x K. exact K.
  - apply LG; [exact F|]. intros x K. exact K.
  - apply LG; [exact F|]. intros x K. exact K.
  - exact F.
  - exact F.
Qed.
Lemma run_cons o os m m' a : run (o :: os) m = Ok (m', a) -> exists m1 a1 a2, step o m = Ok (m1, a1) /\ run os m1 = Ok (m', a2) /\ a = a1 ++ a2.
Proof.
  cbn [run]. destruct (step o m) as [(m1, a1)| | |]; try discriminate. cbn [bind fst snd]. destruct (run os m1) as [(m2, a2)| | |] eqn:R; try discriminate. cbn [bind fst snd].
  intros H. apply Ok_inj in H. injection H as <- <-. eauto 6.
Qed.
Lemma run_app os1 : forall os2 m m' a, run (os1 ++ os2) m = Ok (m', a) -> exists m1 a1 a2, run os1 m = Ok (m1, a1) /\ run os2 m1 = Ok (m', a2) /\ a = a1 ++ a2.
Proof.
  induction os1 as [|o os1 IH]; intros os2 m m' a H; [exists m, [], a; auto|]. cbn [app] in H. apply run_cons in H as (m1 & a1 & a2 & S & R & ->).
  apply IH in R as (m2 & b1 & b2 & R1 & R2 & ->). exists m2, (a1 ++ b1), b2. cbn [run]. rewrite S. cbn [bind fst snd]. rewrite R1. cbn [bind fst snd]. now rewrite app_assoc.
Qed.
Lemma edits_all_fresh es : forall m m' a, fresh m -> Forall edit es -> run es m = Ok (m', a) -> fresh m' /\ a = [].
Proof.
  induction es as [|o es IH]; intros m m' a F E R; [cbn in R; apply Ok_inj in R; injection R as <- <-; auto|]. inversion E as [|? ? E1 E2]; subst.
  apply run_cons in R as (m1 & a1 & a2 & S & R & ->). destruct (edits_fresh _ _ _ _ F E1 S) as (F1 & ->). exact (IH _ _ _ F1 E2 R).
Qed.
Lemma fresh_current m : fresh m -> current m.
Proof. intros F x I. destruct (F x I) as (A & B). split; [now left|]. intros l J. left. auto. Qed.

Lemma chan_right m x t : (ch_kept x = [] \/ ch_kept x = right_name m x) -> chan_name m x = Ok t -> t = right_name m x.
Proof.
  unfold chan_name. intros [K|K].
  - rewrite K. change (nlen [] =? 0) with true. cbv iota. unfold right_name. destruct (ch_lcs x) as [|l r]; [intros H; apply Ok_inj in H; now rewrite app_nil_r|].
    destruct (lc_attr l) as [a|]; [|discriminate]. intros H. apply Ok_inj in H. now subst t.
  - destruct (nlen (ch_kept x) =? 0) eqn:E.
    + apply nlen_nil in E. rewrite E in K. unfold right_name in K. destruct (named (geo_name m) (ch_geo x)); discriminate K.
    + intros H. apply Ok_inj in H. congruence.
Qed.
Lemma log_right m l : (lc_kept l = [] \/ lc_kept l = named (attr_name m) (lc_attr l)) -> log_name m l = named (attr_name m) (lc_attr l).
Proof. unfold log_name. intros K. destruct (nlen (lc_kept l) =? 0) eqn:E; [reflexivity|]. destruct K as [K|K]; [rewrite K in E; discriminate E|exact K]. Qed.
Lemma fun_right m i f : fun_name m (N.of_nat i + 1) f = right_fun m i f.
Proof.
  unfold fun_name, right_fun. destruct (fn_name f) as [|b r]; [|now rewrite nlen_cons by discriminate]. change (nlen [] =? 0) with true. cbv iota. destruct (fn_attr f); [|reflexivity].
  unfold numbered. now replace (Z.of_N (N.of_nat i + 1)) with (Z.of_nat (S i)) by lia.
Qed.
Lemma answer_right m c w t : current m -> answer m c w = Ok t -> t = right m c w.
Proof.
  intros C. unfold answer, right. destruct (nth_error (chans m) c) as [x|] eqn:X; [|intros H; now apply Ok_inj in H].
  destruct (C x (nth_error_In _ _ X)) as (K & L). destruct (chan_name m x) as [n| | |] eqn:E; try discriminate. cbn [bind]. rewrite (chan_right m x n K E).
  destruct w as [|l|l i]; [intros H; now apply Ok_inj in H| |]; (destruct (nth_error (ch_lcs x) l) as [y|] eqn:Y; [|intros H; now apply Ok_inj in H]);
    rewrite (log_right m y (L y (nth_error_In _ _ Y))).
  - intros H. now apply Ok_inj in H.
  - destruct (nth_error (lc_fns y) i) as [f|]; [|intros H; now apply Ok_inj in H]. rewrite fun_right. intros H. now apply Ok_inj in H.
Qed.
(** Asking changes nothing but the names that are kept. *)
Definition same_chan (x y : ch) : Prop := ch_geo x = ch_geo y /\ map (fun l => (lc_attr l, lc_fns l)) (ch_lcs x) = map (fun l => (lc_attr l, lc_fns l)) (ch_lcs y).
Lemma same_chan_refl x : same_chan x x. Proof. now split. Qed.
Lemma same_right m m' x y : geo_name m' = geo_name m -> attr_name m' = attr_name m -> same_chan x y -> right_name m' x = right_name m y.
Proof.
  intros G A (H1 & H2). unfold right_name. rewrite G, A, H1. f_equal. destruct (ch_lcs x) as [|l r], (ch_lcs y) as [|l' r']; try discriminate H2; [reflexivity|].
  cbn [map] in H2. injection H2 as -> _ _. reflexivity.
Qed.
Definition same_mode (m m' : mode) : Prop := geo_name m = geo_name m' /\ attr_name m = attr_name m' /\ Forall2 same_chan (chans m) (chans m').
Lemma same_mode_right m m' c w : same_mode m m' -> right m c w = right m' c w.
Proof.
  intros (G & A & F). unfold right. assert (N : match nth_error (chans m) c, nth_error (chans m') c with Some x, Some y => same_chan x y | None, None => True | _, _ => False end).
  { clear -F. revert c. induction F as [|x y l l' H _ IH]; intros [|c]; cbn; auto. apply IH. }
  destruct (nth_error (chans m) c) as [x|], (nth_error (chans m') c) as [y|]; try contradiction; [|reflexivity].
  assert (E : right_name m x = right_name m' y) by (apply same_right; auto). destruct N as (_ & N). rewrite E, A.
  assert (K : forall l, option_map (fun l => (lc_attr l, lc_fns l)) (nth_error (ch_lcs x) l) = option_map (fun l => (lc_attr l, lc_fns l)) (nth_error (ch_lcs y) l)).
  { intros l. rewrite <- !nth_error_map. now rewrite N. }
  destruct w as [|l|l i]; [reflexivity| |]; specialize (K l); (destruct (nth_error (ch_lcs x) l) as [u|], (nth_error (ch_lcs y) l) as [v|]; try discriminate K; [|reflexivity]); cbn in K; injection K as K1 K2; rewrite K1, ?K2; [reflexivity|].
  destruct (nth_error (lc_fns v) i); [|reflexivity]. unfold right_fun. now rewrite A.
Qed.
Lemma upd_same {A} (R : A -> A -> Prop) (f : A -> A) : (forall x, R x x) -> (forall x, R x (f x)) -> forall l i, Forall2 R l (upd i f l).
Proof.
  intros Rr Rf. assert (ID : forall l, Forall2 R l l) by (induction l; constructor; auto).
  induction l as [|x l IH]; intros [|i]; cbn; constructor; auto.
Qed.
Lemma map_upd {A B} (g : A -> B) (f : A -> A) : (forall x, g (f x) = g x) -> forall l i, map g (upd i f l) = map g l.
Proof. intros H. induction l as [|x l IH]; intros [|i]; cbn; try reflexivity; [now rewrite H|now rewrite IH]. Qed.
Lemma keep_chan_same m x : same_chan x (keep_chan m x).
Proof. unfold keep_chan. destruct (chan_name m x); now split. Qed.
Lemma same_trans l1 : forall l2 l3, Forall2 same_chan l1 l2 -> Forall2 same_chan l2 l3 -> Forall2 same_chan l1 l3.
Proof.
  induction l1 as [|x l1 IH]; intros l2 l3 H1 H2; inversion H1; subst; inversion H2; subst; constructor; [|eapply IH; eassumption].
  match goal with A : same_chan x ?y, B : same_chan ?y _ |- _ => destruct A, B; split; congruence end.
Qed.
Lemma keep_same m c w : same_mode m (keep m c w).
Proof.
  assert (A : forall m0, same_mode m m0 -> forall l, same_mode m (in_log c l (keep_log m) m0)).
  { intros m0 (G & A & F) l. split; [exact G|]. split; [exact A|]. cbn [in_log in_chan chans]. apply (same_trans _ _ _ F).
    apply upd_same; [apply same_chan_refl|]. intros x. split; [reflexivity|]. cbn [ch_lcs]. symmetry. now apply map_upd. }
  assert (B : same_mode m (in_chan c (keep_chan m) m)).
  { split; [reflexivity|]. split; [reflexivity|]. cbn [in_chan chans]. apply upd_same; [apply same_chan_refl|apply keep_chan_same]. }
  unfold keep. destruct w; auto.
Qed.
Lemma keep_current m c w : current m -> current (keep m c w).
Proof.
  intros C. assert (B : current (in_chan c (keep_chan m) m)).
  { intros x I. cbn [in_chan chans geo_name attr_name] in *. apply in_upd in I as [I|(y & I & ->)]; [apply (C x I)|]. destruct (C y I) as (K & L).
    assert (Q : right_name (in_chan c (keep_chan m) m) (keep_chan m y) = right_name m y) by (apply same_right; [reflexivity|reflexivity|]; destruct (keep_chan_same m y); now split).
    rewrite Q. clear Q.
    unfold keep_chan. destruct (chan_name m y) as [t| | |] eqn:E; auto. cbn [ch_kept ch_lcs]. split; [|exact L]. right. exact (chan_right m y t K E). }
  assert (A : forall l, current (in_log c l (keep_log m) (in_chan c (keep_chan m) m))).
  { intros l x I. cbn [in_log in_chan chans geo_name attr_name] in *. apply in_upd in I as [I|(y & I & ->)]; [apply (B x I)|].
    destruct (B y I) as (K & L). cbn [ch_kept ch_lcs]. split.
    - destruct K as [K|K]; [now left|right]. rewrite K. apply same_right; [reflexivity|reflexivity|]. split; [reflexivity|]. cbn [ch_lcs]. symmetry. now apply map_upd.
    - intros z J. apply in_upd in J as [J|(u & J & ->)]; [exact (L z J)|]. cbn [keep_log lc_kept lc_attr]. right. apply log_right. exact (L u J). }
  unfold keep. destruct w; auto.
Qed.
Lemma asks_right qs : forall m m' ts, current m -> run (map ask qs) m = Ok (m', ts) ->
  ts = map (fun q => right m (fst q) (snd q)) qs /\ current m' /\ same_mode m m'.
Proof.
  induction qs as [|(c, w) qs IH]; intros m m' ts C R.
  - cbn in R. apply Ok_inj in R. injection R as <- <-. split; [reflexivity|]. split; [exact C|]. split; [reflexivity|]. split; [reflexivity|]. induction (chans m); constructor; auto using same_chan_refl.
  - cbn [map] in R. apply run_cons in R as (m1 & a1 & a2 & S & R & ->). unfold ask in S. cbn [fst snd step] in S.
    destruct (answer m c w) as [t| | |] eqn:E; try discriminate S. cbn [bind] in S. apply Ok_inj in S. injection S as <- <-.
    destruct (IH _ _ _ (keep_current m c w C) R) as (-> & C' & M). pose proof (keep_same m c w) as K.
    split; [|split; [exact C'|destruct K as (G1 & A1 & F1), M as (G2 & A2 & F2); split; [congruence|split; [congruence|exact (same_trans _ _ _ F1 F2)]]]].
    cbn [map app fst snd]. rewrite (answer_right m c w t C E). f_equal. apply map_ext. intros q. symmetry. now apply same_mode_right.
Qed.

(** ** C103: references *)
(** As long as nothing is asked before the last change, every reference is made of the present names. *)
Theorem C103_asked m es m1 a1 qs m2 ts : fresh m -> Forall edit es -> run es m = Ok (m1, a1) -> run (map ask qs) m1 = Ok (m2, ts) ->
  a1 = [] /\ ts = map (fun q => right m2 (fst q) (snd q)) qs.
Proof.
  intros F E R1 R2. destruct (edits_all_fresh _ _ _ _ F E R1) as (F1 & ->). split; [reflexivity|].
  destruct (asks_right qs m1 m2 ts (fresh_current _ F1) R2) as (-> & _ & M). apply map_ext. intros q. now apply same_mode_right.
Qed.

(** Reading the file finds what a right reference was made for. *)
Lemma match_one {A} (l : list (list N * A)) k a : In (k, a) l -> (forall x, In x l -> same_name (fst x) k -> snd x = a) -> first_match l k a.
Proof.
  intros I U. apply linear_some. unfold linear. destruct (find (fun p => txeq (fst p) k) l) as [x|] eqn:F.
  - apply find_some in F as (J & E). apply txeq_same_name in E. now rewrite (U x J E).
  - exfalso. pose proof (find_none _ _ F _ I) as D. cbn [fst] in D. assert (txeq k k = true) by now apply txeq_same_name. congruence.
Qed.
Lemma in_places {A B} (f : nat -> A -> B) l z : In z (places f l) <-> exists i x, nth_error l i = Some x /\ z = f i x.
Proof.
  unfold places. rewrite in_map_iff.
  assert (G : forall (l : list A) k i x, In (i, x) (combine (seq k (List.length l)) l) <-> (k <= i)%nat /\ nth_error l (i - k) = Some x).
  { clear l z. induction l as [|a l IH]; intros k i x; cbn [List.length seq combine].
    - split; [intros []|]. intros (_ & H). destruct (i - k)%nat; discriminate H.
    - cbn [In]. rewrite IH. split.
      + intros [[= -> ->]|(L & H)]; [split; [lia|]; now rewrite Nat.sub_diag|]. split; [lia|]. replace (i - k)%nat with (S (i - S k)) by lia. exact H.
      + intros (L & H). destruct (Nat.eq_dec i k) as [-> |D]; [rewrite Nat.sub_diag in H; injection H as ->; now left|]. right. split; [lia|].
        replace (i - k)%nat with (S (i - S k)) in H by lia. exact H. }
  split.
  - intros ((i, x) & <- & I). apply G in I as (_ & I). rewrite Nat.sub_0_r in I. exists i, x. auto.
  - intros (i & x & H & ->). exists (i, x). split; [reflexivity|]. apply G. split; [lia|]. now rewrite Nat.sub_0_r.
Qed.
Lemma places_length {A B} (f : nat -> A -> B) l : List.length (places f l) = List.length l.
Proof. unfold places. rewrite map_length, combine_length, seq_length. lia. Qed.
Definition all_named (m : mode) : Prop := forall x, In x (chans m) ->
  (forall l r, ch_lcs x = l :: r -> lc_attr l <> None) /\ forall l f, In l (ch_lcs x) -> In f (lc_fns l) -> fn_name f = [] -> fn_attr f <> None.
Lemma places_head {A B} (f : nat -> A -> B) l y r : places f l = y :: r -> exists x s, l = x :: s /\ y = f 0%nat x.
Proof. destruct l as [|x s]; [discriminate|]. unfold places. cbn [List.length seq combine map fst snd]. intros [= <- _]. eauto. Qed.
Lemma read_complete m : all_named m -> Forall complete (as_read m).
Proof.
  intros H. apply Forall_forall. intros z I. unfold as_read in I. apply in_places in I as (c & x & X & ->). destruct (H x (nth_error_In _ _ X)) as (H1 & H2).
  split; [reflexivity|]. cbn [h_logical]. split.
  - intros l r E. apply places_head in E as (y & s & E & ->). cbn [l_attr]. specialize (H1 y s E). now destruct (lc_attr y).
  - intros l f J K. apply in_places in J as (i & y & Y & ->). cbn [l_funcs] in K. apply in_places in K as (j & g & G & ->). cbn [f_name f_attr].
    intros E. specialize (H2 y g (nth_error_In _ _ Y) (nth_error_In _ _ G) E). now destruct (fn_attr g).
Qed.
Lemma named_map (f : nat -> list N) o : text_or_empty (option_map f o) = named f o.
Proof. now destruct o. Qed.
(** No two channels, and no two functions, have one name up to case. *)
Definition channels_differ (m : mode) : Prop := forall c d, (c < List.length (chans m))%nat -> (d < List.length (chans m))%nat ->
  same_name (right m c TheChannel) (right m d TheChannel) -> c = d.
Definition is_fun (m : mode) (c l i : nat) : Prop := exists x y f, nth_error (chans m) c = Some x /\ nth_error (ch_lcs x) l = Some y /\ nth_error (lc_fns y) i = Some f.
Definition functions_differ (m : mode) : Prop := forall c l i d k j, is_fun m c l i -> is_fun m d k j ->
  same_name (right m c (TheFunction l i)) (right m d (TheFunction k j)) -> [c; l; i] = [d; k; j].
Lemma flat_places {A B C} (g : B -> list C) (f : nat -> A -> B) l : flat_map g (places f l) = List.concat (places (fun i x => g (f i x)) l).
Proof. unfold places. now rewrite flat_map_concat_map, map_map. Qed.
Lemma shift_places {A B C} (g : nat -> B -> C) (f : nat -> A -> B) l :
  map (fun p => g (fst p) (snd p)) (combine (seq 1 (List.length (places f l))) (places f l)) = places (fun i x => g (S i) (f i x)) l.
Proof.
  rewrite places_length. unfold places. generalize 0%nat. induction l as [|a l IH]; intros k; [reflexivity|]. cbn [List.length seq combine map fst snd]. f_equal. apply IH.
Qed.
Lemma in_keys m : all_named m -> forall k a, In (k, a) (function_keys (as_read m)) <-> exists c l i, is_fun m c l i /\ k = right m c (TheFunction l i) /\ a = [c; l; i].
Proof.
  intros A k a. unfold function_keys, as_read. rewrite flat_places. rewrite in_concat.
  assert (REF : forall c x l y i f, nth_error (chans m) c = Some x -> nth_error (ch_lcs x) l = Some y -> nth_error (lc_fns y) i = Some f ->
    channel_text (mkCh [] (option_map (geo_name m) (ch_geo x)) (places (fun l y => mkLog (option_map (attr_name m) (lc_attr y))
      (places (fun i f => mkFunc (fn_name f) (option_map (attr_name m) (fn_attr f)) [c; l; i]) (lc_fns y))) (ch_lcs x)) [c]) ++ T"." ++ text_or_empty (option_map (attr_name m) (lc_attr y)) ++ T"." ++
      own_name (S i) (mkFunc (fn_name f) (option_map (attr_name m) (fn_attr f)) [c; l; i]) = right m c (TheFunction l i)).
  { intros c x l y i f X Y F. unfold right. rewrite X, Y, F. unfold channel_text, right_name. cbn [h_geo h_logical]. rewrite !named_map. rewrite <- !app_assoc. do 2 f_equal.
    assert (HD : match places (fun (l0 : nat) (y0 : lc) => mkLog (option_map (attr_name m) (lc_attr y0)) (places (fun (i0 : nat) (f0 : fn) => mkFunc (fn_name f0) (option_map (attr_name m) (fn_attr f0)) [c; l0; i0]) (lc_fns y0))) (ch_lcs x) with
      | [] => [] | l0 :: _ => text_or_empty (l_attr l0) end = match ch_lcs x with [] => [] | l0 :: _ => named (attr_name m) (lc_attr l0) end).
    { destruct (ch_lcs x) as [|y0 r']; [reflexivity|]. unfold places. cbn [List.length seq combine map fst snd l_attr]. now rewrite named_map. }
    rewrite HD. do 4 f_equal. unfold own_name, right_fun. cbn [f_name f_attr]. destruct (fn_name f) eqn:FN; [|reflexivity]. rewrite named_map.
    destruct (A x (nth_error_In _ _ X)) as (_ & A2). specialize (A2 y f (nth_error_In _ _ Y) (nth_error_In _ _ F) FN). now destruct (fn_attr f). }
  split.
  - intros (ks & I & J). apply in_places in I as (c & x & X & ->). cbn [h_logical] in J. rewrite flat_places in J. apply in_concat in J as (ks & I & J). apply in_places in I as (l & y & Y & ->).
    cbn [l_funcs l_attr] in J. rewrite (shift_places (fun i f => (_ ++ T"." ++ text_or_empty (option_map (attr_name m) (lc_attr y)) ++ T"." ++ own_name i f, f_id f))) in J.
    apply in_places in J as (i & f & F & J). injection J as -> ->. cbn [f_id]. exists c, l, i. split; [exists x, y, f; auto|]. split; [|reflexivity]. now apply REF.
  - intros (c & l & i & (x & y & f & X & Y & F) & -> & ->). eexists. split; [apply in_places; exists c, x; split; [exact X|reflexivity]|]. cbn [h_logical]. rewrite flat_places. apply in_concat.
    eexists. split; [apply in_places; exists l, y; split; [exact Y|reflexivity]|]. cbn [l_funcs l_attr].
    rewrite (shift_places (fun i f => (_ ++ T"." ++ text_or_empty (option_map (attr_name m) (lc_attr y)) ++ T"." ++ own_name i f, f_id f))). apply in_places. exists i, f. split; [exact F|].
    now rewrite (REF c x l y i f X Y F).
Qed.
Section Hash.
Variable hash : list N -> N.
Variable buckets : N.
Theorem C103_channel m c t use : current m -> all_named m -> channels_differ m -> (c < List.length (chans m))%nat -> answer m c TheChannel = Ok t ->
  channel_by_ref hash buckets use (as_read m) t = Ok (Some [c]).
Proof.
  intros C A D L E. pose proof (answer_right m c TheChannel t C E) as ->.
  destruct (C52_channel_partial hash buckets (as_read m) (right m c TheChannel) (read_complete m A)) as (r & R1 & R2 & SP).
  assert (K : r = Some [c]); [|destruct use; congruence]. apply SP. exists (places (fun d x => (right m d TheChannel, [d])) (chans m)). split.
  - unfold as_read, places. assert (G : forall k (l : list ch), (forall i x, nth_error l i = Some x -> nth_error (chans m) (k + i) = Some x) ->
      Forall2 (fun c p => channel_key c (fst p) /\ snd p = h_id c)
        (map (fun p => mkCh [] (option_map (geo_name m) (ch_geo (snd p))) (places (fun l y => mkLog (option_map (attr_name m) (lc_attr y))
          (places (fun i f => mkFunc (fn_name f) (option_map (attr_name m) (fn_attr f)) [fst p; l; i]) (lc_fns y))) (ch_lcs (snd p))) [fst p]) (combine (seq k (List.length l)) l))
        (map (fun p => (right m (fst p) TheChannel, [fst p])) (combine (seq k (List.length l)) l))).
    { intros k l. revert k. induction l as [|x l IH]; intros k H; cbn [List.length seq combine map]; constructor.
      - split; [|reflexivity]. unfold channel_key. cbn [fst snd h_geo h_logical]. unfold right. specialize (H 0%nat x eq_refl). rewrite Nat.add_0_r in H. rewrite H.
        unfold right_name. rewrite named_map. do 2 f_equal. destruct (ch_lcs x) as [|y r']; [reflexivity|]. unfold places. cbn [List.length seq combine map fst snd l_attr]. now rewrite named_map.
      - apply IH. intros i y Y. specialize (H (S i) y Y). now replace (S k + i)%nat with (k + S i)%nat by lia. }
    exact (G 0%nat (chans m) (fun i x H => H)).
  - apply match_one.
    + apply in_places. destruct (nth_error (chans m) c) as [x|] eqn:X; [|apply nth_error_None in X; lia]. exists c, x. auto.
    + intros z I N. apply in_places in I as (d & x & X & ->). cbn [fst snd] in *. f_equal. apply D; [apply nth_error_Some; congruence|exact L|exact N].
Qed.
Theorem C103_function m c l i t use : current m -> all_named m -> functions_differ m -> is_fun m c l i -> answer m c (TheFunction l i) = Ok t ->
  function_by_ref hash buckets use (as_read m) t = Ok (Some [c; l; i]).
Proof.
  intros C A D (x & y & f & X & Y & F) E. pose proof (answer_right m c _ t C E) as ->.
  destruct (C52_function_partial hash buckets (as_read m) (right m c (TheFunction l i)) (read_complete m A)) as (r & R1 & R2 & SP).
  assert (K : r = Some [c; l; i]); [|destruct use; congruence]. apply SP.
  apply match_one.
  - apply (in_keys m A). exists c, l, i. split; [exists x, y, f; auto|auto].
  - intros (k, a) I N. apply (in_keys m A) in I as (d & e & j & I & -> & ->). cbn [fst snd] in *. apply D; [exact I|exists x, y, f; auto|exact N].
Qed.
End Hash.

(** Whatever is changed later, a channel keeps the name of the moment it was asked for first. *)
Definition about (c : nat) (o : op) : Prop := match o with Ask d _ => d = c | Generate => True | _ => False end.
Definition not_generate (o : op) : Prop := o <> Generate.
Definition kept_at (m : mode) (c : nat) : option (list N) := option_map ch_kept (nth_error (chans m) c).
Lemma kept_chan m c d f : (forall x, nth_error (chans m) d = Some x -> ch_kept (f x) = ch_kept x) -> kept_at (in_chan c f m) d = kept_at m d.
Proof.
  intros H. unfold kept_at, in_chan. cbn [chans]. rewrite nth_upd. destruct (c =? d)%nat; [|reflexivity]. destruct (nth_error (chans m) d) as [x|] eqn:E; [|reflexivity]. cbn [option_map]. f_equal. now apply H.
Qed.
Lemma kept_log m c l d f : kept_at (in_log c l f m) d = kept_at m d.
Proof. now apply kept_chan. Qed.
Lemma edit_kept o m m' a d : edit o -> step o m = Ok (m', a) -> kept_at m' d = kept_at m d \/ kept_at m d = None /\ kept_at m' d = Some [].
Proof.
  intros E. destruct o; cbn [step edit] in *; try contradiction; intros H; apply Ok_inj in H; injection H as <- <-; try (left; first [apply kept_log|now apply kept_chan|reflexivity]).
  unfold kept_at. cbn [chans]. destruct (Nat.lt_ge_cases d (List.length (chans m))) as [L|L]; [left; now rewrite nth_error_app1|].
  rewrite nth_error_app2 by exact L. replace (nth_error (chans m) d) with (@None ch) by (symmetry; now apply nth_error_None).
  destruct (d - List.length (chans m))%nat as [|[|k]]; cbn; auto.
Qed.
Lemma ask_kept m c w t d : answer m c w = Ok t -> kept_at (keep m c w) d = if (c =? d)%nat then match nth_error (chans m) c with Some x => match chan_name m x with Ok n => Some n | _ => None end | None => None end else kept_at m d.
Proof.
  intros A. assert (B : kept_at (keep m c w) d = kept_at (in_chan c (keep_chan m) m) d) by (unfold keep; destruct w; [reflexivity|apply kept_log|apply kept_log]). rewrite B.
  unfold kept_at, in_chan. cbn [chans]. rewrite nth_upd. destruct (c =? d)%nat eqn:E; [|reflexivity]. apply Nat.eqb_eq in E. subst d.
  unfold answer in A. destruct (nth_error (chans m) c) as [x|]; [|reflexivity]. cbn [option_map]. unfold keep_chan. destruct (chan_name m x) as [n| | |]; try discriminate A. reflexivity.
Qed.
Lemma name_not_nil m x n : chan_name m x = Ok n -> n <> [].
Proof.
  unfold chan_name. destruct (nlen (ch_kept x) =? 0) eqn:E.
  - destruct (ch_lcs x) as [|l r]; [intros H; apply Ok_inj in H; subst n; apply snoc_not_nil|]. destruct (lc_attr l); [|discriminate]. intros H. apply Ok_inj in H. subst n. apply snoc_not_nil.
  - intros H. apply Ok_inj in H. subst n. intros D. rewrite D in E. discriminate E.
Qed.
Lemma kept_name m x n : ch_kept x = n -> n <> [] -> chan_name m x = Ok n.
Proof. intros <- H. unfold chan_name. now rewrite (nlen_cons _ H). Qed.
Lemma kept_stays c n : n <> [] -> forall os m m' a, kept_at m c = Some n -> Forall not_generate os -> run os m = Ok (m', a) -> kept_at m' c = Some n.
Proof.
  intros Hn. induction os as [|o os IH]; intros m m' a K F R; [cbn in R; apply Ok_inj in R; injection R as <- _; exact K|]. inversion F as [|? ? F1 F2]; subst.
  apply run_cons in R as (m1 & a1 & a2 & S1 & R & ->). refine (IH m1 m' a2 _ F2 R). destruct o as [g|d g|d b|d l b|d l t b|d l i t|d l i b|g t|b t|d w|];
    try (pose proof (fun e => edit_kept _ _ _ _ c e S1) as EK; destruct (EK I) as [E|(E & _)]; congruence); [|contradiction F1; reflexivity].
  cbn [step] in S1. destruct (answer m d w) as [t| | |] eqn:A; try discriminate S1. cbn [bind] in S1. apply Ok_inj in S1. injection S1 as <- <-. rewrite (ask_kept m d w t c A).
  destruct (d =? c)%nat eqn:E; [|exact K]. apply Nat.eqb_eq in E. subst d. unfold kept_at in K. destruct (nth_error (chans m) c) as [x|]; [|discriminate K]. cbn [option_map] in K. injection K as K.
  now rewrite (kept_name m x n K Hn).
Qed.
Lemma kept_none c : forall os m m' a, (forall x, nth_error (chans m) c = Some x -> ch_kept x = []) -> (forall o, In o os -> ~ about c o) -> run os m = Ok (m', a) ->
  forall x, nth_error (chans m') c = Some x -> ch_kept x = [].
Proof.
  induction os as [|o os IH]; intros m m' a K F R; [cbn in R; apply Ok_inj in R; injection R as <- _; exact K|].
  apply run_cons in R as (m1 & a1 & a2 & S1 & R & ->). apply (IH m1 m' a2); [|intros o' I; apply F; now right|exact R].
  assert (Q : kept_at m1 c = kept_at m c \/ kept_at m c = None /\ kept_at m1 c = Some []).
  { specialize (F o (or_introl eq_refl)). destruct o as [g|d g|d b|d l b|d l t b|d l i t|d l i b|g t|b t|d w|]; try (pose proof (fun e => edit_kept _ _ _ _ c e S1) as EK; exact (EK I)).
    - cbn [step] in S1. destruct (answer m d w) as [t| | |] eqn:A; try discriminate S1. cbn [bind] in S1. apply Ok_inj in S1. injection S1 as <- <-. rewrite (ask_kept m d w t c A).
      destruct (d =? c)%nat eqn:E; [|now left]. apply Nat.eqb_eq in E. now contradiction (F E).
    - now contradiction (F I). }
  intros x X. unfold kept_at in Q. rewrite X in Q. cbn [option_map] in Q. destruct Q as [Q|(_ & Q)]; [|now injection Q].
  destruct (nth_error (chans m) c) as [y|]; [|discriminate Q]. cbn [option_map] in Q. injection Q as Q. rewrite Q. now apply K.
Qed.
Theorem C103_first m0 m1 m2 m3 c w t a1 a2 before between : fresh m0 -> (forall o, In o before -> ~ about c o) -> run before m0 = Ok (m1, a1) -> (c < List.length (chans m1))%nat ->
  run (Ask c w :: between) m1 = Ok (m2, a2) -> Forall not_generate between -> step (Ask c TheChannel) m2 = Ok (m3, [t]) -> t = right m1 c TheChannel.
Proof.
  intros F B R1 L R2 G S3. apply run_cons in R2 as (m' & b1 & b2 & S1 & R2 & ->).
  assert (K : forall x, nth_error (chans m1) c = Some x -> ch_kept x = []).
  { apply (kept_none c before m0 m1 a1); [|exact B|exact R1]. intros x X. apply (F x (nth_error_In _ _ X)). }
  cbn [step] in S1. destruct (answer m1 c w) as [u| | |] eqn:A; try discriminate S1. cbn [bind] in S1. apply Ok_inj in S1. injection S1 as <- <-.
  pose proof (ask_kept m1 c w u c A) as Q. rewrite Nat.eqb_refl in Q. unfold answer in A. destruct (nth_error (chans m1) c) as [x|] eqn:X; [|apply nth_error_None in X; lia].
  destruct (chan_name m1 x) as [n| | |] eqn:N; try discriminate A. pose proof (name_not_nil _ _ _ N) as NN.
  pose proof (kept_stays c n NN _ _ _ _ Q G R2) as Q2. unfold kept_at in Q2. destruct (nth_error (chans m2) c) as [y|] eqn:Y; [|discriminate Q2]. cbn [option_map] in Q2. injection Q2 as Q2.
  cbn [step] in S3. unfold answer in S3. rewrite Y in S3. rewrite (kept_name m2 y n Q2 NN) in S3. cbn [bind] in S3. apply Ok_inj in S3. injection S3 as _ <-.
  unfold right. rewrite X. apply (chan_right m1 x n); [left; now apply K|exact N].
Qed.
(** After reading: the names of the file that was read. *)
Theorem C103_read m0 m1 m2 m3 c x g t a1 a2 between : nth_error (chans m0) c = Some x -> ch_geo x = Some g -> (exists l r, ch_lcs x = l :: r /\ lc_attr l <> None) ->
  step Generate m0 = Ok (m1, a1) -> run between m1 = Ok (m2, a2) -> Forall not_generate between -> step (Ask c TheChannel) m2 = Ok (m3, [t]) -> t = right m0 c TheChannel.
Proof.
  intros X G (l & r & LL & LA) S1 R2 NG S3. cbn [step] in S1. apply Ok_inj in S1. injection S1 as <- <-.
  assert (E : right_name m0 x = geo_name m0 g ++ T"_" ++ named (attr_name m0) (lc_attr l)) by (unfold right_name; now rewrite LL, G).
  assert (K : kept_at (mkMode (geo_name m0) (attr_name m0) (map (gen_chan m0) (chans m0))) c = Some (right_name m0 x)).
  { unfold kept_at. cbn [chans]. rewrite nth_error_map, X. cbn [option_map]. unfold gen_chan. rewrite G, LL. cbn [ch_kept first_attr_of]. rewrite E. destruct (lc_attr l) as [a|]; [reflexivity|now contradiction LA]. }
  assert (NN : right_name m0 x <> []) by (rewrite E; apply snoc_not_nil).
  pose proof (kept_stays c _ NN _ _ _ _ K NG R2) as Q2. unfold kept_at in Q2. destruct (nth_error (chans m2) c) as [y|] eqn:Y; [|discriminate Q2]. cbn [option_map] in Q2. injection Q2 as Q2.
  cbn [step] in S3. unfold answer in S3. rewrite Y in S3. rewrite (kept_name m2 y _ Q2 NN) in S3. cbn [bind] in S3. apply Ok_inj in S3. injection S3 as _ <-. unfold right. now rewrite X.
Qed.

(** *** Cases *)
Definition two_heads : mode := mkMode (fun g => match g with 0%nat => T"Head" | _ => T"Cell" end) (fun a => match a with 0%nat => T"Dimmer" | _ => T"Pan" end)
  [mkChan (Some 0%nat) [] [mkLc (Some 0%nat) [] [mkFn T"Open" (Some 0%nat); mkFn [] (Some 0%nat)]]; mkChan (Some 1%nat) [] [mkLc (Some 0%nat) [] [mkFn [] (Some 0%nat)]]].
Definition edits : list op := [AddChannel 0; AddLogical 2 1; AddFunction 2 0 [] (Some 1%nat); RenameGeo 0 T"Top"; SetGeometry 2 1; SetFunName 0 0 1 T"Strobe"].
Definition edited : mode := match run edits two_heads with Ok (m, _) => m | _ => two_heads end.
Lemma two_fresh : fresh two_heads.
Proof. intros x [<- |[<- |[]]]; (split; [reflexivity|]); intros l [<- |[]]; reflexivity. Qed.
Example C103_asked_case : exists m2, run (map ask [(0%nat, TheChannel); (2%nat, TheFunction 0 0); (0%nat, TheFunction 0 1); (1%nat, TheLogical 0)]) edited =
  Ok (m2, [T"Top_Dimmer"; T"Cell_Pan.Pan.Pan 1"; T"Top_Dimmer.Dimmer.Strobe"; T"Cell_Dimmer.Dimmer"]).
Proof. eexists. vm_compute. reflexivity. Qed.
Example C103_asked_meets : fresh two_heads /\ Forall edit edits /\ run edits two_heads = Ok (edited, []).
Proof. split; [apply two_fresh|]. split; [repeat constructor|]. reflexivity. Qed.
(** The modes used below are as the theorems above have them. *)
Definition differb (l : list (list N)) : bool := (fix go l := match l with [] => true | x :: r => forallb (fun y => negb (txeq x y)) r && go r end) l.
Lemma differb_ok l : differb l = true -> forall i j x y, nth_error l i = Some x -> nth_error l j = Some y -> same_name x y -> i = j.
Proof.
  induction l as [|z l IH]; intros D i j x y X Y S1; [destruct i; discriminate X|]. cbn [differb] in D. apply andb_prop in D as (D1 & D2). rewrite forallb_forall in D1.
  assert (NO : forall u, In u l -> same_name z u -> False) by (intros u I E; specialize (D1 u I); apply txeq_same_name in E; rewrite E in D1; discriminate D1).
  destruct i as [|i], j as [|j]; cbn in X, Y; try reflexivity.
  - injection X as ->. now contradiction (NO y (nth_error_In _ _ Y)).
  - injection Y as ->. contradiction (NO x (nth_error_In _ _ X)). now symmetry.
  - f_equal. exact (IH D2 i j x y X Y S1).
Qed.
Lemma differ_ok m : differb (map (right_name m) (chans m)) = true -> channels_differ m.
Proof.
  intros D c d Lc Ld E. unfold right in E. destruct (nth_error (chans m) c) as [x|] eqn:X; [|apply nth_error_None in X; lia]. destruct (nth_error (chans m) d) as [y|] eqn:Y; [|apply nth_error_None in Y; lia].
  apply (differb_ok _ D c d (right_name m x) (right_name m y)); [now rewrite nth_error_map, X|now rewrite nth_error_map, Y|exact E].
Qed.
Lemma two_named : all_named two_heads.
Proof. intros x [<- |[<- |[]]]; (split; [intros l r [= <- <-]; discriminate|]); intros l f [<- |[]]; cbn; intros I; repeat (destruct I as [<- |I]; [discriminate|]); destruct I. Qed.
Lemma two_differ : channels_differ two_heads.
Proof. apply differ_ok. vm_compute. reflexivity. Qed.
Example C103_channel_case hash buckets use : channel_by_ref hash buckets use (as_read two_heads) T"Cell_Dimmer" = Ok (Some [1%nat]).
Proof. apply C103_channel; [apply fresh_current, two_fresh|exact two_named|exact two_differ|cbn; lia|reflexivity]. Qed.
Lemma two_functions : functions_differ two_heads.
Proof.
  assert (IS : forall c l i, is_fun two_heads c l i -> In [c; l; i] [[0; 0; 0]; [0; 0; 1]; [1; 0; 0]]%nat).
  { intros c l i (x & y & f & X & Y & F). destruct c as [|[|c]]; cbn in X; [| |destruct c; discriminate X]; injection X as <-; (destruct l as [|l]; cbn in Y; [injection Y as <-|destruct l; discriminate Y]);
      cbn in F; repeat (destruct i as [|i]; cbn in F; [cbn; tauto|]); try discriminate F; destruct i; discriminate F. }
  intros c l i d k j H1 H2 E. apply IS in H1, H2. cbn [In] in H1, H2. apply txeq_same_name in E.
  destruct H1 as [H1|[H1|[H1|[]]]]; injection H1 as <- <- <-; (destruct H2 as [H2|[H2|[H2|[]]]]; injection H2 as <- <- <-); try reflexivity; vm_compute in E; discriminate E.
Qed.
Example C103_function_case hash buckets use : function_by_ref hash buckets use (as_read two_heads) T"Head_Dimmer.Dimmer.Dimmer 2" = Ok (Some [0; 0; 1]%nat).
Proof. apply (C103_function hash buckets two_heads 0 0 1); [apply fresh_current, two_fresh|exact two_named|exact two_functions| |reflexivity]. repeat eexists. Qed.

(** *** Out of date *)
Definition after (os : list op) (m : mode) : mode := match run os m with Ok (m', _) => m' | _ => m end.
Definition namedb (m : mode) : bool := forallb (fun x => match ch_lcs x with l :: _ => match lc_attr l with None => false | _ => true end | [] => true end &&
  forallb (fun l => forallb (fun f => negb (nlen (fn_name f) =? 0) || match fn_attr f with None => false | _ => true end) (lc_fns l)) (ch_lcs x)) (chans m).
Lemma namedb_ok m : namedb m = true -> all_named m.
Proof.
  intros H x I. unfold namedb in H. rewrite forallb_forall in H. specialize (H x I). apply andb_prop in H as (H1 & H2). split.
  - intros l r E. rewrite E in H1. now destruct (lc_attr l).
  - intros l f J K E. rewrite forallb_forall in H2. specialize (H2 l J). rewrite forallb_forall in H2. specialize (H2 f K). rewrite E in H2. change (nlen [] =? 0) with true in H2. cbn in H2. now destruct (fn_attr f).
Qed.
Lemma no_function hash buckets m ref : namedb m = true -> linear (function_keys (as_read m)) ref = None -> forall use, function_by_ref hash buckets use (as_read m) ref = Ok None.
Proof.
  intros A L use. destruct (C52_function_partial hash buckets (as_read m) ref (read_complete m (namedb_ok m A))) as (r & R1 & R2 & SP).
  assert (K : r = None); [|destruct use; congruence]. destruct r as [i|]; [|reflexivity]. assert (M : Some i = Some i) by reflexivity. apply SP, linear_some in M. congruence.
Qed.
(** A fixture is read and one of its geometries renamed: the references to the functions of its channels lead
    nowhere in the next file. *)
Theorem C103_rename_refuted : exists m0 g t m2 ref, fresh m0 /\ all_named m0 /\ channels_differ m0 /\ functions_differ m0 /\
  run [Generate; RenameGeo g t; Ask 0 (TheFunction 0 0)] m0 = Ok (m2, [ref]) /\
  channels_differ m2 /\ is_fun m2 0 0 0 /\ forall hash buckets use, function_by_ref hash buckets use (as_read m2) ref = Ok None.
Proof.
  exists two_heads, 0%nat, (T"Top"), (after [Generate; RenameGeo 0 (T"Top"); Ask 0 (TheFunction 0 0)] two_heads), (T"Head_Dimmer.Dimmer.Open").
  split; [apply two_fresh|]. split; [apply two_named|]. split; [apply two_differ|]. split; [apply two_functions|].
  split; [reflexivity|]. split; [apply differ_ok; vm_compute; reflexivity|]. split; [repeat eexists|].
  intros hash buckets use. apply no_function; vm_compute; reflexivity.
Qed.
(** Without reading a file: the fixture is saved, the attribute of a logical channel changed, and saved again. *)
Theorem C103_saved_refuted : exists m0 m2 ref1 ref2, fresh m0 /\ all_named m0 /\ channels_differ m0 /\ functions_differ m0 /\
  run [Ask 0 (TheFunction 0 0); SetLogicalAttr 0 0 1; Ask 0 (TheFunction 0 0)] m0 = Ok (m2, [ref1; ref2]) /\
  channels_differ m2 /\ is_fun m2 0 0 0 /\ forall hash buckets use, function_by_ref hash buckets use (as_read m2) ref2 = Ok None.
Proof.
  exists two_heads, (after [Ask 0 (TheFunction 0 0); SetLogicalAttr 0 0 1; Ask 0 (TheFunction 0 0)] two_heads), (T"Head_Dimmer.Dimmer.Open"), (T"Head_Dimmer.Dimmer.Open").
  split; [apply two_fresh|]. split; [apply two_named|]. split; [apply two_differ|]. split; [apply two_functions|].
  split; [reflexivity|]. split; [apply differ_ok; vm_compute; reflexivity|]. split; [repeat eexists|].
  intros hash buckets use. apply no_function; vm_compute; reflexivity.
Qed.
(** The geometries of two channels are exchanged: what refers to one of them refers to the other in the next
    file. *)
Theorem C103_wrong_refuted : exists m0 m2 ref, fresh m0 /\ all_named m0 /\ channels_differ m0 /\
  run [Generate; SetGeometry 0 1; SetGeometry 1 0; Ask 0 TheChannel] m0 = Ok (m2, [ref]) /\
  channels_differ m2 /\ forall hash buckets use, channel_by_ref hash buckets use (as_read m2) ref = Ok (Some [1%nat]).
Proof.
  exists two_heads, (after [Generate; SetGeometry 0 1; SetGeometry 1 0; Ask 0 TheChannel] two_heads), (T"Head_Dimmer").
  split; [apply two_fresh|]. split; [apply two_named|]. split; [apply two_differ|]. split; [reflexivity|]. split; [apply differ_ok; vm_compute; reflexivity|].
  intros hash buckets use. set (m' := mkMode (geo_name two_heads) (attr_name two_heads) (map (fun x => mkChan (ch_geo x) [] (ch_lcs x)) (chans (after [Generate; SetGeometry 0 1; SetGeometry 1 0; Ask 0 TheChannel] two_heads)))).
  change (as_read (after [Generate; SetGeometry 0 1; SetGeometry 1 0; Ask 0 TheChannel] two_heads)) with (as_read m').
  apply C103_channel; [|apply namedb_ok; reflexivity|apply differ_ok; vm_compute; reflexivity|cbn; lia|reflexivity].
  intros x [<- |[<- |[]]]; (split; [now left|]); intros l [<- |[]]; right; reflexivity.
Qed.
Example C103_first_case : exists m1 m2 m3 a1 a2, run [RenameGeo 0 (T"Top")] two_heads = Ok (m1, a1) /\ run [Ask 0 (TheLogical 0); SetGeometry 0 1; RenameAttr 0 (T"Pan")] m1 = Ok (m2, a2) /\
  step (Ask 0 TheChannel) m2 = Ok (m3, [T"Top_Dimmer"]) /\ right m2 0 TheChannel = T"Cell_Pan".
Proof.
  exists (after [RenameGeo 0 (T"Top")] two_heads), (after [RenameGeo 0 (T"Top"); Ask 0 (TheLogical 0); SetGeometry 0 1; RenameAttr 0 (T"Pan")] two_heads),
    (after [RenameGeo 0 (T"Top"); Ask 0 (TheLogical 0); SetGeometry 0 1; RenameAttr 0 (T"Pan"); Ask 0 TheChannel] two_heads), [], [T"Top_Dimmer.Dimmer"]. repeat split.
Qed.

(** ** C104: functions without a name *)
(** The names that [AutoGenerateNames] gives to the functions of a logical channel differ from each other. *)
Lemma last_space : forall (a b c d : list N), ~ In 32 c -> ~ In 32 d -> a ++ 32 :: c = b ++ 32 :: d -> c = d.
Proof.
  induction a as [|x a IH]; intros [|y b] c d C D E; cbn [app] in E.
  - now injection E.
  - injection E as <- E. contradiction C. rewrite E. apply in_app_iff. right. now left.
  - injection E as -> E. contradiction D. rewrite <- E. apply in_app_iff. right. now left.
  - injection E as _ E. exact (IH b c d C D E).
Qed.
Definition has_own (f : fn) : bool := negb (nlen (fn_name f) =? 0) || match fn_attr f with None => false | _ => true end.
Definition count (l : list fn) : N := nlen (filter has_own l).
Lemma count_cons f l : count (f :: l) = (if has_own f then 1 else 0) + count l.
Proof. unfold count, nlen. cbn [filter]. destruct (has_own f); cbn [List.length]; lia. Qed.
Lemma gen_nth m : forall fs n i f, nth_error fs i = Some f -> nth_error (gen_funs m fs n) i =
  Some (match fn_name f, fn_attr f with [], Some a => mkFn (attr_name m a ++ T" " ++ itoa (Z.of_N (n + count (firstn i fs)))) (fn_attr f) | _, _ => f end).
Proof.
  induction fs as [|f0 fs IH]; intros n i f H; [destruct i; discriminate H|]. cbn [gen_funs]. destruct i as [|i]; cbn [nth_error] in H.
  - injection H as ->. change (count (firstn 0 (f :: fs))) with 0. rewrite N.add_0_r. destruct (fn_name f) as [|b r] eqn:E.
    + change (nlen [] =? 0) with true. cbv iota. destruct (fn_attr f) eqn:EA; reflexivity.
    + rewrite nlen_cons by discriminate. reflexivity.
  - cbn [firstn]. rewrite count_cons. unfold has_own. destruct (nlen (fn_name f0) =? 0) eqn:E; cbn [negb orb].
    + destruct (fn_attr f0) as [a|] eqn:EA; cbn [nth_error]; rewrite (IH _ _ _ H); [now rewrite (N.add_assoc n 1)|now rewrite N.add_0_l].
    + cbn [nth_error]. rewrite (IH _ _ _ H). now rewrite (N.add_assoc n 1).
Qed.
Lemma count_firstn fs : forall i j f, (i < j)%nat -> nth_error fs i = Some f -> has_own f = true -> count (firstn i fs) < count (firstn j fs).
Proof.
  induction fs as [|f0 fs IH]; intros i j f L H O; [destruct i; discriminate H|]. destruct j as [|j]; [lia|]. destruct i as [|i]; cbn [nth_error] in H; cbn [firstn].
  - injection H as ->. change (count []) with 0. rewrite count_cons, O. lia.
  - rewrite !count_cons. specialize (IH i j f ltac:(lia) H O). lia.
Qed.
Lemma count_le fs : count fs <= N.of_nat (List.length fs).
Proof. induction fs as [|f fs IH]; [cbn; lia|]. rewrite count_cons. cbn [List.length]. destruct (has_own f); lia. Qed.
(** The name that reading gives to the function, if it gives one. *)
Definition unnamed (f : fn) : Prop := fn_name f = [] /\ fn_attr f <> None.
Lemma gen_different m fs i j f g : N.of_nat (List.length fs) < 2 ^ 62 -> nth_error fs i = Some f -> nth_error fs j = Some g -> unnamed f -> unnamed g -> i <> j ->
  exists f' g', nth_error (gen_funs m fs 1) i = Some f' /\ nth_error (gen_funs m fs 1) j = Some g' /\ ~ same_name (fn_name f') (fn_name g').
Proof.
  intros B F G (Fn & Fa) (Gn & Ga) D. rewrite (gen_nth m fs 1 i f F), (gen_nth m fs 1 j g G), Fn, Gn. destruct (fn_attr f) as [a|] eqn:FA; [|now contradiction Fa]. destruct (fn_attr g) as [b|] eqn:GA; [|now contradiction Ga].
  eexists. eexists. split; [reflexivity|]. split; [reflexivity|]. cbn [fn_name]. unfold same_name. rewrite !make_lower_app.
  assert (LE : forall k, count (firstn k fs) <= N.of_nat (List.length fs)) by (intros k; pose proof (count_le (firstn k fs)); pose proof (firstn_length k fs); lia).
  assert (LO : forall n, n < 9223372036854775808 -> make_lower (itoa (Z.of_N n)) = dec n).
  { intros n H. rewrite (itoa_N n H). destruct (dec_spec n) as (DG & _). unfold make_lower. induction DG as [|x l Dx _ IH]; [reflexivity|]. cbn [map]. f_equal; [|exact IH].
    unfold digit in Dx. unfold to_lower. replace ((65 <=? x) && (x <=? 90)) with false by lia. reflexivity. }
  change (2 ^ 62) with 4611686018427387904 in B.
  rewrite !LO by (match goal with |- context[firstn ?k fs] => specialize (LE k) end; lia). change (make_lower (T" ")) with [32]. cbn [app].
  intros E. apply last_space in E.
  - apply (f_equal (fun l => digits_val l 0)) in E. rewrite !dec_val in E. assert (Of : has_own f = true) by (unfold has_own; rewrite FA; apply orb_true_r). assert (Og : has_own g = true) by (unfold has_own; rewrite GA; apply orb_true_r).
    destruct (Nat.lt_gt_cases i j) as (C & _). destruct (C D) as [L|L]; [pose proof (count_firstn fs i j f L F Of)|pose proof (count_firstn fs j i g L G Og)]; lia.
  - intros I. destruct (dec_spec (1 + count (firstn i fs))) as (DG & _). rewrite Forall_forall in DG. specialize (DG _ I). unfold digit in DG. lia.
  - intros I. destruct (dec_spec (1 + count (firstn j fs))) as (DG & _). rewrite Forall_forall in DG. specialize (DG _ I). unfold digit in DG. lia.
Qed.
(** The functions of a logical channel of the mode, if the channel has a geometry and the logical channel an
    attribute. *)
Definition its_functions (m : mode) (c k : nat) (fs : list fn) : Prop :=
  exists x y, nth_error (chans m) c = Some x /\ ch_geo x <> None /\ nth_error (ch_lcs x) k = Some y /\ lc_attr y <> None /\ lc_fns y = fs.
Lemma generated m m' a c k fs : step Generate m = Ok (m', a) -> its_functions m c k fs -> its_functions m' c k (gen_funs m fs 1).
Proof.
  intros H (x & y & X & G & Y & A & F). apply Ok_inj in H. injection H as <- _. exists (gen_chan m x), (gen_log m y). cbn [chans].
  unfold gen_chan. destruct (ch_geo x) as [g|] eqn:EG; [|now contradiction G].
  split; [rewrite (map_nth_error _ _ _ X); unfold gen_chan; now rewrite EG|]. cbn [ch_geo ch_lcs]. split; [discriminate|].
  split; [now rewrite (map_nth_error _ _ _ Y)|]. unfold gen_log. destruct (lc_attr y) as [b|] eqn:EA; [|now contradiction A]. cbn [lc_attr lc_fns]. split; [discriminate|now rewrite F].
Qed.
Theorem C104_different m m' a c k fs i j f g : step Generate m = Ok (m', a) -> its_functions m c k fs ->
  N.of_nat (List.length fs) < 2 ^ 62 -> nth_error fs i = Some f -> nth_error fs j = Some g -> unnamed f -> unnamed g -> i <> j ->
  exists fs' f' g', its_functions m' c k fs' /\ nth_error fs' i = Some f' /\ nth_error fs' j = Some g' /\ ~ same_name (fn_name f') (fn_name g').
Proof.
  intros H K B F G UF UG D. destruct (gen_different m fs i j f g B F G UF UG D) as (f' & g' & R). exists (gen_funs m fs 1), f', g'. split; [exact (generated m m' a c k fs H K)|exact R].
Qed.
(** They are the names that references to them are written with, if every function has a name or an attribute. *)
Lemma gen_written m fs i f : (forall g, In g fs -> fn_name g = [] -> fn_attr g <> None) -> nth_error fs i = Some f ->
  exists f', nth_error (gen_funs m fs 1) i = Some f' /\ fn_name f' = right_fun m i f /\ fn_attr f' = fn_attr f.
Proof.
  intros A F. rewrite (gen_nth m fs 1 i f F). eexists. split; [reflexivity|].
  assert (CN : count (firstn i fs) = N.of_nat i).
  { assert (L : (i < List.length fs)%nat) by (apply nth_error_Some; congruence). unfold count, nlen. f_equal. replace (filter has_own (firstn i fs)) with (firstn i fs); [apply firstn_length_le; lia|].
    assert (I : forall g, In g (firstn i fs) -> has_own g = true).
    { intros g I. assert (J : In g fs) by (rewrite <- (firstn_skipn i fs); apply in_app_iff; now left). specialize (A g J). unfold has_own. destruct (fn_name g); [|now rewrite nlen_cons by discriminate].
      destruct (fn_attr g); [apply orb_true_r|now contradiction (A eq_refl)]. }
    clear -I. induction (firstn i fs) as [|g l IH]; [reflexivity|]. cbn [filter]. rewrite (I g (or_introl eq_refl)). f_equal. apply IH. intros x J. apply I. now right. }
  rewrite CN. replace (Z.of_N (1 + N.of_nat i)) with (Z.of_nat (S i)) by lia. unfold right_fun. destruct (fn_name f) as [|b r] eqn:FN.
  - specialize (A f (nth_error_In _ _ F) FN). destruct (fn_attr f); [split; reflexivity|now contradiction A].
  - now rewrite FN.
Qed.
Theorem C104_written m m' a c k fs i f : step Generate m = Ok (m', a) -> its_functions m c k fs ->
  (forall g, In g fs -> fn_name g = [] -> fn_attr g <> None) -> nth_error fs i = Some f ->
  exists fs' f', its_functions m' c k fs' /\ nth_error fs' i = Some f' /\ fn_name f' = right_fun m i f /\ fn_attr f' = fn_attr f.
Proof.
  intros H K A F. destruct (gen_written m fs i f A F) as (f' & R). exists (gen_funs m fs 1), f'. split; [exact (generated m m' a c k fs H K)|exact R].
Qed.
(** But a function of the file can have such a name already: a reference to the one without name is then one
    to the other. *)
Definition clashing : mode := mkMode (fun _ => T"Head") (fun _ => T"Dimmer") [mkChan (Some 0%nat) [] [mkLc (Some 0%nat) [] [mkFn (T"Dimmer 2") (Some 0%nat); mkFn [] (Some 0%nat)]]].
Theorem C104_clash_refuted : exists m ref, fresh m /\ all_named m /\ is_fun m 0 0 1 /\ answer m 0 (TheFunction 0 1) = Ok ref /\
  forall hash buckets use, function_by_ref hash buckets use (as_read m) ref = Ok (Some [0; 0; 0]%nat).
Proof.
  exists clashing, (T"Head_Dimmer.Dimmer.Dimmer 2"). split; [intros x [<- |[]]; split; [reflexivity|]; intros l [<- |[]]; reflexivity|]. split; [apply namedb_ok; reflexivity|]. split; [repeat eexists|]. split; [reflexivity|].
  intros hash buckets use. destruct (C52_function_partial hash buckets (as_read clashing) (T"Head_Dimmer.Dimmer.Dimmer 2") (read_complete clashing (namedb_ok clashing eq_refl))) as (r & R1 & R2 & SP).
  assert (K : r = Some [0; 0; 0]%nat); [|destruct use; congruence]. apply SP, linear_some. vm_compute. reflexivity.
Qed.
Definition four_functions : list fn := [mkFn [] (Some 0%nat); mkFn (T"Open") (Some 0%nat); mkFn [] (Some 1%nat); mkFn [] None; mkFn [] (Some 0%nat)].
Definition unnamed_functions : mode := mkMode (fun _ => T"Head") (fun i => if (i =? 0)%nat then T"Dimmer" else T"Pan") [mkChan (Some 0%nat) [] [mkLc (Some 0%nat) [] four_functions]].
Example C104_meets : its_functions unnamed_functions 0 0 four_functions.
Proof. exists (mkChan (Some 0%nat) [] [mkLc (Some 0%nat) [] four_functions]), (mkLc (Some 0%nat) [] four_functions). repeat split; discriminate. Qed.
Example C104_case : exists m' fs', step Generate unnamed_functions = Ok (m', []) /\ its_functions m' 0 0 fs' /\ map fn_name fs' = [T"Dimmer 1"; T"Open"; T"Pan 3"; []; T"Dimmer 4"].
Proof.
  eexists. exists (gen_funs unnamed_functions four_functions 1). split; [reflexivity|]. split; [eapply generated; [reflexivity|exact C104_meets]|reflexivity].
Qed.
Print Assumptions C103_asked.
Print Assumptions C103_channel.
Print Assumptions C103_function.
Print Assumptions C103_first.
Print Assumptions C103_read.
Print Assumptions C103_rename_refuted.
Print Assumptions C103_saved_refuted.
Print Assumptions C103_wrong_refuted.
Print Assumptions C104_different.
Print Assumptions C104_written.
Print Assumptions C104_clash_refuted.

(** Each call does what it is for: a channel that is built and then changed throughout has the reference made of what
    was set last. *)
Lemma upd_last {A} (f : A -> A) l x : upd (List.length l) f (l ++ [x]) = l ++ [f x].
Proof. induction l as [|y l IH]; [reflexivity|]. cbn [List.length app upd]. now rewrite IH. Qed.
Lemma nth_last {A} (l : list A) x : nth_error (l ++ [x]) (List.length l) = Some x.
Proof. induction l as [|y l IH]; [reflexivity|exact IH]. Qed.
Definition last_of (m : mode) : nat := List.length (chans m).
Lemma nlen_nz (t : N) w : (nlen (t :: w) =? 0) = false.
Proof. unfold nlen. cbn [List.length]. lia. Qed.
Lemma numbered_1 x : numbered x 1 = x ++ T" 1".
Proof. reflexivity. Qed.
Theorem C103_built m g a b b' t w :
  let n := last_of m in
  (exists m', run [AddChannel g; AddLogical n a; AddFunction n 0 (t :: w) b; Ask n (TheFunction 0 0)] m = Ok (m', [geo_name m g ++ T"_" ++ attr_name m a ++ T"." ++ attr_name m a ++ T"." ++ t :: w])) /\
  (exists m', run [AddChannel g; AddLogical n a; AddFunction n 0 [] (Some b'); Ask n (TheFunction 0 0)] m = Ok (m', [geo_name m g ++ T"_" ++ attr_name m a ++ T"." ++ attr_name m a ++ T"." ++ attr_name m b' ++ T" 1"])) /\
  (forall g' a' t' u v, exists m', run [AddChannel g; AddLogical n a; AddFunction n 0 (t :: w) b; SetGeometry n g'; SetLogicalAttr n 0 a'; SetFunName n 0 0 (t' :: w); RenameGeo g' u; RenameAttr a' v; Ask n (TheFunction 0 0)] m =
    Ok (m', [u ++ T"_" ++ v ++ T"." ++ v ++ T"." ++ t' :: w])).
Proof.
  intros n. unfold n, last_of. clear n. destruct m as [gn an cs]. cbn [chans geo_name attr_name]. split; [|split].
  - eexists. unfold run, step, in_log, in_chan. cbn [chans geo_name attr_name bind fst snd]. rewrite !upd_last. unfold answer, chan_name, log_name, fun_name. cbn [chans]. rewrite nth_last. cbn [ch_kept ch_lcs ch_geo app upd nth_error lc_attr lc_kept lc_fns named geo_name attr_name fn_name bind fst snd]. rewrite ?nlen_nz. change (nlen [] =? 0) with true. cbn [bind fst snd app]. change (N.of_nat 0 + 1) with 1. rewrite ?numbered_1, <- ?app_assoc. reflexivity.
  - eexists. unfold run, step, in_log, in_chan. cbn [chans geo_name attr_name bind fst snd]. rewrite !upd_last. unfold answer, chan_name, log_name, fun_name. cbn [chans]. rewrite nth_last. cbn [ch_kept ch_lcs ch_geo app upd nth_error lc_attr lc_kept lc_fns named geo_name attr_name fn_name fn_attr bind fst snd]. rewrite ?nlen_nz. change (nlen [] =? 0) with true. cbn [bind fst snd app]. change (N.of_nat 0 + 1) with 1. rewrite ?numbered_1, <- ?app_assoc. reflexivity.
  - intros g' a' t' u v. eexists. unfold run, step, in_fun, in_log, in_chan. cbn [chans geo_name attr_name bind fst snd]. rewrite !upd_last. unfold answer, chan_name, log_name, fun_name. cbn [chans]. rewrite nth_last. cbn [ch_kept ch_lcs ch_geo app upd nth_error lc_attr lc_kept lc_fns named geo_name attr_name fn_name fn_attr bind fst snd].
    unfold renamed. rewrite !Nat.eqb_refl, ?nlen_nz. change (nlen [] =? 0) with true. cbn [bind fst snd app]. rewrite <- ?app_assoc. reflexivity.
Qed.
Print Assumptions C103_built.
