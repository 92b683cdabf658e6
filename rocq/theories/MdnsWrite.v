(** Lemmas about MdnsModel: names that are written, the bounds of the readers. *)
From Coq Require Import String List NArith ZArith Lia Bool Arith.
From Coq Require Import ZifyN ZifyNat ZifyBool.
From Verif Require Import Bytes BytesProofs Txt NumModel JsonModel ServiceModel ServiceProofs XmlRef MdnsModel MdnsSpec MdnsProofs.
Import ListNotations.
Open Scope N_scope.
Ltac Zify.zify_post_hook ::= idtac.

(** ** mdns_string_make *)
Lemma nlen_cons {A} (x : A) l : nlen (x :: l) = nlen l + 1.
Proof. unfold nlen. cbn [List.length]. lia. Qed.
Lemma dotted_cons l ls : dotted (l :: ls) = l ++ 46 :: dotted ls.
Proof. unfold dotted. cbn [flat_map]. rewrite <- app_assoc. reflexivity. Qed.
Lemma wire_cons l ls : wire (l :: ls) = nlen l :: l ++ wire ls.
Proof. unfold wire, label_bytes. cbn [flat_map app]. rewrite <- app_assoc. reflexivity. Qed.
Lemma nlen_wire_cons l ls : nlen (wire (l :: ls)) = 1 + nlen l + nlen (wire ls).
Proof. rewrite wire_cons, nlen_cons, nlen_app. lia. Qed.
Lemma find_dot l r : ~ In 46 l -> find_char 46 (l ++ 46 :: r) = Some (List.length l).
Proof.
  induction l as [|x l IH]; intros H; cbn [app find_char In List.length] in *; [reflexivity|].
  replace (x =? 46) with false by (symmetry; apply N.eqb_neq; intros ->; tauto). rewrite IH by tauto. reflexivity.
Qed.
Lemma find_no_dot l : ~ In 46 l -> find_char 46 l = None.
Proof.
  induction l as [|x l IH]; intros H; cbn [find_char In] in *; [reflexivity|].
  replace (x =? 46) with false by (symmetry; apply N.eqb_neq; intros ->; tauto). rewrite IH by tauto. reflexivity.
Qed.
Definition fits (cap : N) (ls : list (list N)) (out : list N) : res (option (list N)) :=
  if nlen (wire ls) <=? cap then Ok (Some (out ++ wire ls)) else Ok None.
Lemma make_step f l r cap out : label l -> make_loop (S f) (l ++ 46 :: r) cap out =
  if nlen l <? cap then make_loop f r (cap - (nlen l + 1)) (out ++ label_bytes l) else Ok None.
Proof.
  intros [L D]. cbn [make_loop]. destruct (l ++ 46 :: r) as [|x y] eqn:E; [destruct l; discriminate E|]. rewrite <- E. clear x y E.
  rewrite (find_dot l r D). fold (nlen l). destruct (nlen l <? cap); [|reflexivity].
  rewrite N.mod_small by lia. rewrite firstn_app, firstn_all, Nat.sub_diag. cbn [firstn]. rewrite app_nil_r. f_equal.
  rewrite skipn_app, skipn_all2 by lia. replace (List.length l + 1 - List.length l)%nat with 1%nat by lia. reflexivity.
Qed.
Lemma make_dotted : forall ls fuel cap out, Forall label ls -> (List.length ls < fuel)%nat -> make_loop fuel (dotted ls) cap out = fits cap ls out.
Proof.
  induction ls as [|l ls IH]; intros [|f] cap out F Fu; cbn [List.length] in Fu; try lia.
  - unfold fits. cbn [dotted flat_map make_loop]. change (nlen (wire [])) with 1. change (wire []) with [0]. destruct (N.eqb_spec cap 0), (N.leb_spec 1 cap); try reflexivity; lia.
  - inversion_clear F as [|? ? F1 F2]. rewrite dotted_cons, make_step by exact F1. unfold fits. rewrite nlen_wire_cons.
    destruct (N.ltb_spec (nlen l) cap) as [L|L].
    + rewrite IH by (assumption || lia). unfold fits. rewrite wire_cons. unfold label_bytes. rewrite <- app_assoc. cbn [app].
      destruct (N.leb_spec (nlen (wire ls)) (cap - (nlen l + 1))), (N.leb_spec (1 + nlen l + nlen (wire ls)) cap); try reflexivity; lia.
    + destruct (N.leb_spec (1 + nlen l + nlen (wire ls)) cap); [lia|reflexivity].
Qed.
Lemma make_open : forall ls l fuel cap out, Forall label ls -> label l -> (S (List.length ls) < fuel)%nat ->
  make_loop fuel (dotted ls ++ l) cap out = fits cap (ls ++ [l]) out.
Proof.
  induction ls as [|k ls IH]; intros l [|f] cap out F Fl Fu; cbn [List.length] in Fu; try lia.
  - destruct Fl as [L D]. cbn [dotted flat_map app make_loop]. destruct l as [|x l']; [cbn in L; lia|]. set (l := x :: l') in *. clearbody l.
    rewrite find_no_dot by exact D. unfold fits. cbn [app]. rewrite nlen_wire_cons. change (nlen (wire [])) with 1. rewrite N.mod_small by lia.
    rewrite wire_cons. change (wire []) with [0].
    destruct (N.ltb_spec (nlen l) cap) as [H|H]; [|destruct (N.leb_spec (1 + nlen l + 1) cap); [lia|reflexivity]].
    destruct (N.eqb_spec (cap - (nlen l + 1)) 0), (N.leb_spec (1 + nlen l + 1) cap); try reflexivity; lia.
  - inversion_clear F as [|? ? F1 F2]. rewrite dotted_cons, <- app_assoc. cbn [app]. rewrite make_step by exact F1. unfold fits. cbn [app]. rewrite nlen_wire_cons.
    destruct (N.ltb_spec (nlen k) cap) as [L|L].
    + rewrite IH by (assumption || lia). unfold fits. rewrite wire_cons. unfold label_bytes. rewrite <- app_assoc. cbn [app].
      destruct (N.leb_spec (nlen (wire (ls ++ [l]))) (cap - (nlen k + 1))), (N.leb_spec (1 + nlen k + nlen (wire (ls ++ [l]))) cap); try reflexivity; lia.
    + destruct (N.leb_spec (1 + nlen k + nlen (wire (ls ++ [l]))) cap); [lia|reflexivity].
Qed.
Lemma length_dotted ls : (List.length ls <= List.length (dotted ls))%nat.
Proof. induction ls as [|l ls IH]; [cbn; lia|]. rewrite dotted_cons, app_length. cbn [List.length]. lia. Qed.
(** The text of a name, with or without the last dot. *)
Inductive names (s : list N) (ls : list (list N)) : Prop :=
| names_closed : Forall label ls -> s = dotted ls -> names s ls
| names_open k l : Forall label k -> label l -> ls = k ++ [l] -> s = dotted k ++ l -> names s ls.
Lemma names_labels s ls : names s ls -> Forall label ls.
Proof. intros [F _|k l F L -> _]; [exact F|]. apply Forall_app. split; [exact F|]. constructor; [exact L|constructor]. Qed.
Lemma make_names s ls cap : names s ls -> name_make cap s = fits cap ls [].
Proof.
  intros [F ->|k l F L -> ->]; unfold name_make.
  - apply make_dotted; [exact F|]. pose proof (length_dotted ls). lia.
  - apply make_open; [exact F|exact L|]. pose proof (length_dotted k). rewrite app_length. destruct L as [L _]. unfold nlen in L. lia.
Qed.
(** Any text. *)
Lemma make_any : forall fuel rest cap out, (List.length rest < fuel)%nat -> exists r, make_loop fuel rest cap out = Ok r /\
  forall b, r = Some b -> nlen b <= nlen out + cap /\ nlen b <= nlen out + nlen rest + 2.
Proof.
  induction fuel as [|f IH]; intros rest cap out Fu; [lia|]. cbn [make_loop]. destruct rest as [|x r] eqn:E.
  - destruct (N.eqb_spec cap 0); eexists; (split; [reflexivity|]); intros b Hb; [discriminate Hb|]. injection Hb as <-. rewrite nlen_app. change (nlen [0]) with 1. change (nlen (@nil N)) with 0. lia.
  - rewrite <- E in *. clear x r E. destruct (find_char 46 rest) as [i|] eqn:Ei.
    + assert (I : (i < List.length rest)%nat).
      { clear -Ei. revert i Ei. induction rest as [|x r IH]; intros i Ei; cbn [find_char] in Ei; [discriminate Ei|]. destruct (x =? 46); [injection Ei as <-; cbn [List.length]; lia|].
        destruct (find_char 46 r) as [j|]; [|discriminate Ei]. injection Ei as <-. specialize (IH j eq_refl). cbn [List.length]. lia. }
      cbv zeta. destruct (N.ltb_spec (N.of_nat i) cap) as [H|H]; [|eexists; split; [reflexivity|discriminate]].
      destruct (IH (skipn (i + 1) rest) (cap - (N.of_nat i + 1)) (out ++ (N.of_nat i mod 256) :: firstn i rest)) as (r&R&B).
      { rewrite skipn_length. lia. }
      exists r. split; [exact R|]. intros b Hb. specialize (B b Hb). rewrite nlen_app, nlen_cons in B. unfold nlen in *. rewrite firstn_length, skipn_length in B. lia.
    + cbv zeta. destruct (N.ltb_spec (nlen rest) cap) as [H|H]; [|eexists; split; [reflexivity|discriminate]].
      destruct (N.eqb_spec (cap - (nlen rest + 1)) 0); eexists; (split; [reflexivity|]); intros b Hb; [discriminate Hb|]. injection Hb as <-.
      rewrite nlen_app, nlen_cons, nlen_app. change (nlen [0]) with 1. lia.
Qed.
Lemma name_make_any cap s : exists r, name_make cap s = Ok r /\ forall b, r = Some b -> nlen b <= cap /\ nlen b <= nlen s + 2.
Proof. destruct (make_any (S (List.length s)) s cap [] ltac:(lia)) as (r&R&B). exists r. split; [exact R|]. intros b Hb. apply B in Hb. change (nlen (@nil N)) with 0 in Hb. lia. Qed.

(** ** What is written follows RFC 1035 *)
Lemma slice_at (a b c : list N) n : n = nlen b -> slice (nlen a) n (a ++ b ++ c) = b.
Proof. intros ->. unfold slice, nlen. rewrite !Nat2N.id, skipn_app, skipn_all, Nat.sub_diag. cbn [skipn app]. rewrite firstn_app, firstn_all, Nat.sub_diag. cbn [firstn]. apply app_nil_r. Qed.
Lemma slice_left (a c : list N) i n : i + n <= nlen a -> slice i n (a ++ c) = slice i n a.
Proof.
  intros H. unfold slice. rewrite skipn_app, firstn_app. replace (N.to_nat n - List.length (skipn (N.to_nat i) a))%nat with 0%nat.
  - cbn [firstn]. apply app_nil_r.
  - rewrite skipn_length. unfold nlen in H. lia.
Qed.
Lemma label_slice (m : list N) off (l : list N) : slice (off + 1) (nlen l) m = l -> 1 <= nlen l -> off + 1 + nlen l <= nlen (m : list N).
Proof.
  intros E L. assert (X : nlen (slice (off + 1) (nlen l) m) = nlen l) by (rewrite E; reflexivity).
  unfold slice, nlen in *. rewrite firstn_length, skipn_length in X. lia.
Qed.
Lemma spelled_more chains m size off ls e x size' : spelled chains m size off ls e -> size <= size' -> spelled chains (m ++ x) size' off ls e.
Proof.
  intros Sp Le. induction Sp as [off B O1|off l ls e B L S1 E1 R IH|off t ls e B1 B2 O1 T1 T2 C R IH].
  - apply sp_end; [apply byte_at_left; exact B|lia].
  - apply sp_label; [apply byte_at_left; exact B|exact L|lia| |exact IH]. rewrite slice_left; [exact E1|]. apply label_slice; [exact E1|lia].
  - apply (sp_ref chains _ _ off t ls e); [apply byte_at_left; exact B1|apply byte_at_left; exact B2|lia|exact T1|lia| |exact IH].
    destruct C as [C|(b&C&D)]; [left; exact C|right]. exists b. split; [apply byte_at_left; exact C|exact D].
Qed.
Lemma labels_cons l ls : flat_map label_bytes (l :: ls) = nlen l :: l ++ flat_map label_bytes ls.
Proof. reflexivity. Qed.
Lemma spelled_labels chains post size : forall ls pre ls' e, Forall label ls ->
  spelled chains (pre ++ flat_map label_bytes ls ++ post) size (nlen pre + nlen (flat_map label_bytes ls)) ls' e ->
  nlen pre + nlen (flat_map label_bytes ls) <= size ->
  spelled chains (pre ++ flat_map label_bytes ls ++ post) size (nlen pre) (ls ++ ls') e.
Proof.
  induction ls as [|l ls IH]; intros pre ls' e F Sp Le.
  - cbn [flat_map app] in *. change (nlen (@nil N)) with 0 in Sp. rewrite N.add_0_r in Sp. exact Sp.
  - inversion_clear F as [|? ? F1 F2]. rewrite labels_cons in *. rewrite nlen_cons, nlen_app in Sp, Le. cbn [app] in *.
    destruct F1 as [L D].
    replace (pre ++ nlen l :: (l ++ flat_map label_bytes ls) ++ post) with ((pre ++ nlen l :: l) ++ flat_map label_bytes ls ++ post) in *
      by (rewrite <- !app_assoc; reflexivity).
    apply sp_label.
    + rewrite <- app_assoc. cbn [app]. apply byte_at_app.
    + exact L.
    + lia.
    + replace (pre ++ nlen l :: l) with ((pre ++ [nlen l]) ++ l) by (rewrite <- app_assoc; reflexivity). rewrite <- app_assoc.
      replace (nlen pre + 1) with (nlen (pre ++ [nlen l])) by (rewrite nlen_app; reflexivity). apply slice_at. reflexivity.
    + assert (X : nlen pre + 1 + nlen l = nlen (pre ++ nlen l :: l)) by (rewrite nlen_app, nlen_cons; lia). rewrite X.
      apply IH; [exact F2| |rewrite <- X; lia]. rewrite <- X. replace (nlen pre + 1 + nlen l + nlen (flat_map label_bytes ls)) with (nlen pre + (nlen l + nlen (flat_map label_bytes ls) + 1)) by lia. exact Sp.
Qed.
Lemma spelled_wire chains pre ls post size : Forall label ls -> nlen pre + nlen (wire ls) <= size ->
  spelled chains (pre ++ wire ls ++ post) size (nlen pre) ls (nlen pre + nlen (wire ls)).
Proof.
  intros F Le. unfold wire in *. rewrite nlen_app in *. change (nlen [0]) with 1 in *.
  rewrite <- app_assoc. pose proof (spelled_labels chains ([0] ++ post) size ls pre [] (nlen pre + (nlen (flat_map label_bytes ls) + 1)) F) as X.
  rewrite app_nil_r in X. apply X; [|lia].
  rewrite N.add_assoc. apply sp_end; [|lia]. rewrite app_assoc, <- nlen_app. cbn [app]. apply byte_at_app.
Qed.
(** A name that ends with a reference. *)
Definition ref_bytes (t : N) : list N := [192 + t / 256; t mod 256].
Lemma make_ref_ok cap t : 2 <= cap -> t < 16384 -> make_ref cap t = Some (ref_bytes t).
Proof.
  intros C H. unfold make_ref. rewrite (proj2 (N.ltb_ge _ _)) by exact C. rewrite N.mod_small by lia. f_equal.
  assert (E : N.lor 49152 t = 49152 + t).
  { rewrite N.lor_comm. symmetry. rewrite N.add_comm. rewrite <- N.lxor_lor.
    - apply N.add_nocarry_lxor. replace t with (t mod 2 ^ 14) by (apply N.mod_small; exact H). apply N.bits_inj. intros k. rewrite N.land_spec, N.bits_0.
      destruct (N.ltb_spec k 14).
      + replace (N.testbit 49152 k) with false; [apply andb_false_r|]. change 49152 with (3 * 2 ^ 14). symmetry. apply N.mul_pow2_bits_low. exact H0.
      + rewrite N.mod_pow2_bits_high by exact H0. reflexivity.
    - replace t with (t mod 2 ^ 14) by (apply N.mod_small; exact H). apply N.bits_inj. intros k. rewrite N.land_spec, N.bits_0.
      destruct (N.ltb_spec k 14).
      + replace (N.testbit 49152 k) with false; [apply andb_false_r|]. change 49152 with (3 * 2 ^ 14). symmetry. apply N.mul_pow2_bits_low. exact H0.
      + rewrite N.mod_pow2_bits_high by exact H0. reflexivity. }
  rewrite E, be2 by lia. unfold ref_bytes. change 49152 with (192 * 256). rewrite N.add_comm, N.div_add, N.mod_add by lia. f_equal. lia.
Qed.
Lemma nlen_ref t : nlen (ref_bytes t) = 2.
Proof. reflexivity. Qed.
Lemma spelled_ref chains pre ls t post size ls' e : Forall label ls -> t < 16384 -> t < size ->
  nlen pre + nlen (flat_map label_bytes ls) + 2 <= size ->
  (chains = true \/ exists b, byte_at (pre ++ flat_map label_bytes ls ++ ref_bytes t ++ post) t b /\ b < 192) ->
  spelled chains (pre ++ flat_map label_bytes ls ++ ref_bytes t ++ post) size t ls' e ->
  spelled chains (pre ++ flat_map label_bytes ls ++ ref_bytes t ++ post) size (nlen pre) (ls ++ ls') (nlen pre + nlen (flat_map label_bytes ls) + 2).
Proof.
  intros F T1 T2 Le C Sp. apply spelled_labels; [exact F| |lia].
  assert (A : forall x y, byte_at (pre ++ flat_map label_bytes ls ++ x :: y) (nlen pre + nlen (flat_map label_bytes ls)) x).
  { intros x y. rewrite app_assoc, <- nlen_app. apply byte_at_app. }
  apply (sp_ref chains _ _ _ t ls' e); try assumption.
  - unfold ref_bytes. cbn [app]. apply A.
  - unfold ref_bytes. cbn [app]. pose proof (byte_at_app ((pre ++ flat_map label_bytes ls) ++ [192 + t / 256]) (t mod 256) post) as X.
    rewrite !nlen_app in X. change (nlen [192 + t / 256]) with 1 in X. rewrite <- !app_assoc in X. cbn [app] in X. rewrite <- N.add_assoc in X |- *. exact X.
Qed.
Lemma removelast_wire ls : removelast (wire ls) = flat_map label_bytes ls.
Proof. unfold wire. apply removelast_last. Qed.
Lemma make_with_ref_ok s ls cap t : names s ls -> nlen (wire ls) < cap -> t < 16384 ->
  make_with_ref cap s t = Ok (Some (flat_map label_bytes ls ++ ref_bytes t)).
Proof.
  intros H C T1. unfold make_with_ref. rewrite (make_names s ls cap H). unfold fits. rewrite (proj2 (N.leb_le _ _)) by lia. cbn [bind app]. cbv zeta.
  rewrite (proj2 (N.eqb_neq _ _)) by lia. rewrite make_ref_ok by (exact T1 || lia). rewrite removelast_wire. reflexivity.
Qed.

(** ** Bounds *)
Lemma skip_ends m size : forall fuel cur, (N.to_nat (size - cur) < fuel)%nat ->
  skip_loop fuel m size cur = UB \/ exists o, skip_loop fuel m size cur = Ok o.
Proof.
  induction fuel as [|f IH]; intros cur Fu; [lia|]. cbn [skip_loop].
  destruct (next_part m size cur) as [[p|]| | |] eqn:P; cbn [bind]; [| right; eexists; reflexivity | left; reflexivity | destruct (next_not_loop m size cur); contradiction | destruct (next_not_loop m size cur); contradiction].
  destruct (next_any _ _ _ _ P) as [(A&B&C)|[(A&B&C&D)|(A&B&C)]]; rewrite A.
  - rewrite B. right. eexists. reflexivity.
  - rewrite (proj2 (N.eqb_neq _ _)) by exact B. apply IH. lia.
  - right. eexists. reflexivity.
Qed.
Lemma skip_inside m size : size < nlen m -> forall fuel cur, (N.to_nat (size - cur) < fuel)%nat -> cur < nlen m ->
  exists o, skip_loop fuel m size cur = Ok o /\ forall e, o = Some e -> cur < e /\ e <= N.max size cur + 1.
Proof.
  intros S1. induction fuel as [|f IH]; intros cur Fu C; [lia|]. cbn [skip_loop].
  destruct (next_inside m size cur ltac:(lia) C) as [p P]. rewrite P. cbn [bind]. destruct p as [p|]; [|eexists; split; [reflexivity|discriminate]].
  destruct (next_any _ _ _ _ P) as [(A&B&D)|[(A&B&D&E)|(A&B&D)]]; rewrite A.
  - rewrite B. eexists. split; [reflexivity|]. intros e He. injection He as <-. rewrite D. lia.
  - rewrite (proj2 (N.eqb_neq _ _)) by exact B. destruct (IH (pOff p + pLen p) ltac:(lia) ltac:(lia)) as (o&O1&O2). exists o. split; [exact O1|]. intros e He. specialize (O2 e He). lia.
  - eexists. split; [reflexivity|]. intros e He. injection He as <-. lia.
Qed.
Lemma extract_inside m size : size < nlen m -> forall fuel cur fin out remain, cur < nlen m ->
  extract_loop fuel m size cur fin out remain = Loop \/
  exists w r o, extract_loop fuel m size cur fin out remain = Ok (w, r, o) /\ nlen w + r <= nlen out + remain.
Proof.
  intros S1. induction fuel as [|f IH]; intros cur fin out remain C; [left; reflexivity|]. cbn [extract_loop].
  destruct (next_inside m size cur ltac:(lia) C) as [p P]. rewrite P. cbn [bind]. destruct p as [p|]; [|right; do 3 eexists; split; [reflexivity|lia]].
  cbv zeta. assert (Q : pOff p + pLen p <= N.max size cur) by (destruct (next_any _ _ _ _ P) as [(A&B&D)|[(A&B&D&E)|(A&B&D)]]; lia).
  destruct (N.eqb_spec (pLen p) 0) as [Z|Z]; cbn [bind fst snd]; [right; do 3 eexists; split; [reflexivity|lia]|].
  set (n := if pLen p <? remain then pLen p else remain). assert (Hn : n <= pLen p /\ n <= remain) by (unfold n; destruct (N.ltb_spec (pLen p) remain); lia).
  rewrite rd_bytes_ok by lia. cbn [bind]. assert (W : nlen (slice (pOff p) n m) <= n) by (unfold slice, nlen; rewrite firstn_length; lia).
  destruct (N.eqb_spec (remain - n) 0) as [E|E]; cbn [bind fst snd].
  - match goal with |- context [extract_loop f m size ?c ?F ?o ?r] => destruct (IH c F o r ltac:(lia)) as [L|(w&r'&o'&L&B)] end; [left; exact L|].
    right. do 3 eexists. split; [exact L|]. rewrite nlen_app in B. lia.
  - match goal with |- context [extract_loop f m size ?c ?F ?o ?r] => destruct (IH c F o r ltac:(lia)) as [L|(w&r'&o'&L&B)] end; [left; exact L|].
    right. do 3 eexists. split; [exact L|]. rewrite !nlen_app in B. change (nlen [46]) with 1 in B. lia.
Qed.
