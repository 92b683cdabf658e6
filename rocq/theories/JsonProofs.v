(** Proofs about JSON text. *)
From Coq Require Import List NArith ZArith String Lia Bool.
From Coq Require Import ZifyN ZifyNat ZifyBool.
From Verif Require Import Bytes BytesProofs Txt NumModel NumProofs UtfSpec UtfModel UtfProofs JsonModel.
Import ListNotations.
Open Scope N_scope.
Ltac Zify.zify_post_hook ::= Z.div_mod_to_equations.

(** ** Strings compared *)
Lemma str_eqb_refl a : str_eqb a a = true.
Proof. induction a; cbn [str_eqb]; [reflexivity|]. now rewrite N.eqb_refl. Qed.
Lemma str_eqb_iff : forall a b, str_eqb a b = true <-> a = b.
Proof.
  induction a as [|x a IH]; intros [|y b]; cbn [str_eqb]; split; intros H; try easy.
  - apply andb_prop in H as [H1 H2]. apply N.eqb_eq in H1. apply IH in H2. now subst.
  - injection H as -> ->. rewrite N.eqb_refl. now apply IH.
Qed.
Lemma str_ltb_irrefl a : str_ltb a a = false.
Proof. induction a; cbn [str_ltb]; [reflexivity|]. now rewrite N.ltb_irrefl. Qed.
Lemma str_ltb_trans : forall a b c, str_ltb a b = true -> str_ltb b c = true -> str_ltb a c = true.
Proof.
  induction a as [|x a IH]; intros [|y b] [|z c]; cbn [str_ltb]; try easy.
  destruct (x <? y) eqn:E1; destruct (y <? z) eqn:E2; intros H1 H2.
  - now replace (x <? z) with true by lia.
  - destruct (z <? y) eqn:E3; [discriminate|]. now replace (x <? z) with true by lia.
  - destruct (y <? x) eqn:E3; [discriminate|]. now replace (x <? z) with true by lia.
  - destruct (y <? x) eqn:E3; [discriminate|]. destruct (z <? y) eqn:E4; [discriminate|].
    replace (x <? z) with false by lia. replace (z <? x) with false by lia. eauto.
Qed.
Lemma str_ltb_gt : forall a b, str_ltb a b = true -> str_eqb b a = false /\ str_ltb b a = false.
Proof.
  intros a b H. split.
  - destruct (str_eqb b a) eqn:E; [|reflexivity]. apply str_eqb_iff in E. subst. now rewrite str_ltb_irrefl in H.
  - destruct (str_ltb b a) eqn:E; [|reflexivity]. pose proof (str_ltb_trans _ _ _ H E) as K. now rewrite str_ltb_irrefl in K.
Qed.
Lemma str_total : forall a b, str_eqb a b = false -> str_ltb a b = false -> str_ltb b a = true.
Proof.
  induction a as [|x a IH]; intros [|y b]; cbn [str_eqb str_ltb]; try easy.
  destruct (x <? y) eqn:E1; [easy|]. destruct (y <? x) eqn:E2; [easy|].
  replace (x =? y) with true by lia. cbn [andb]. auto.
Qed.

(** ** The UTF-8 automaton *)
Definition type_of (b : N) : N :=
  if b <? 128 then 0 else if b <? 144 then 1 else if b <? 160 then 9 else if b <? 192 then 7
  else if b <? 194 then 8 else if b <? 224 then 2 else if b =? 224 then 10 else if b =? 237 then 4
  else if b <? 240 then 3 else if b =? 240 then 11 else if b <? 244 then 6 else if b =? 244 then 5 else 8.
Lemma d_type_of b : b < 256 -> d_type b = type_of b.
Proof.
  intros H. apply N.eqb_eq. revert b H. apply (byte_all (fun b => d_type b =? type_of b)).
  vm_compute. reflexivity.
Qed.
Lemma d_code0 x b : b < 256 -> d_code 0 x b =
  if b <? 128 then b else N.land (N.shiftr 255 (type_of b)) b.
Proof.
  intros H. unfold d_code. change (0 =? 0) with true. cbv iota. rewrite (d_type_of b H).
  apply N.eqb_eq. revert b H.
  apply (byte_all (fun b => N.land (N.shiftr 255 (type_of b)) b =? (if b <? 128 then b else N.land (N.shiftr 255 (type_of b)) b))).
  vm_compute. reflexivity.
Qed.
Definition lead_val (b : N) : N := if b <? 128 then b else if b <? 224 then b - 192 else if b <? 240 then b - 224 else b - 240.
Lemma d_code_lead x b : b < 128 \/ 194 <= b < 245 -> d_code 0 x b = lead_val b.
Proof.
  intros H. assert (Hb : b < 256) by lia. rewrite d_code0 by exact Hb.
  assert (E : ((b <? 128) || ((194 <=? b) && (b <? 245))) = true) by lia. clear H.
  apply N.eqb_eq. pose proof (byte_all (fun b => implb ((b <? 128) || ((194 <=? b) && (b <? 245)))
    ((if b <? 128 then b else N.land (N.shiftr 255 (type_of b)) b) =? lead_val b)) eq_refl b Hb) as K.
  cbv beta in K. rewrite E in K. exact K.
Qed.
Lemma lor_low a c : a < 64 -> N.lor a (N.shiftl c 6) = c * 64 + a.
Proof.
  intros H. assert (L0 : N.land a (N.shiftl c 6) = 0).
  2: { rewrite <- N.lxor_lor, <- N.add_nocarry_lxor by exact L0.
       rewrite N.shiftl_mul_pow2. change (2 ^ 6) with 64. lia. }
  { apply N.bits_inj. intros i. rewrite N.land_spec, N.bits_0.
    destruct (N.lt_ge_cases i 6) as [L|L].
    + rewrite N.shiftl_spec_low by exact L. now rewrite andb_false_r.
    + destruct (N.eq_dec a 0) as [->|Ha]; [now rewrite N.bits_0|].
      rewrite (N.bits_above_log2 a i); [reflexivity|].
      assert (N.log2 a < 6) by (apply N.log2_lt_pow2; [lia|exact H]). lia. }
Qed.
Lemma d_code_cont st x b : st <> 0 -> 128 <= b < 192 -> x < 67108864 -> d_code st x b = x * 64 + (b - 128).
Proof.
  intros H1 H2 H3. unfold d_code. replace (st =? 0) with false by lia.
  rewrite N.mod_small by (rewrite N.shiftl_mul_pow2; change (2 ^ 6) with 64; unfold two32; lia).
  rewrite land63. replace (b mod 64) with (b - 128) by lia. apply lor_low. lia.
Qed.
Lemma esc_loop_0 x y s : esc_loop 0 x s = esc_loop 0 y s.
Proof. destruct s as [|b s]; [reflexivity|]. cbn [esc_loop]. unfold d_code. change (0 =? 0) with true. reflexivity. Qed.

(** What a code point is written as. *)
Definition esc_cp (c : N) : list N := if c <? 128 then esc_accept c c else enc8_1 c.
Definition opt_app (a : list N) (o : option (list N)) : option (list N) := match o with Some t => Some (a ++ t) | None => None end.

Ltac stp s t n := change (d_next s t) with n.
(** The transitions. *)
Definition next_of (st ty : N) : N := d_next st ty.
Lemma esc_step st x b r : b < 256 -> esc_loop st x (b :: r) =
  let st' := d_next st (type_of b) in
  if st' =? 1 then None else
  match esc_loop st' (d_code st x b) r with
  | None => None
  | Some t => if st' =? 0 then Some (esc_accept (d_code st x b) b ++ t) else Some (b :: t)
  end.
Proof. intros H. cbn [esc_loop]. rewrite (d_type_of b H). reflexivity. Qed.
Lemma esc_cont st st' ty x b r : b < 256 -> type_of b = ty -> d_next st ty = st' -> st' <> 0 -> st' <> 1 ->
  esc_loop st x (b :: r) = opt_app [b] (esc_loop st' (d_code st x b) r).
Proof.
  intros H <- <- H0 H1. rewrite esc_step by exact H. cbv zeta.
  replace (d_next st (type_of b) =? 1) with false by lia. replace (d_next st (type_of b) =? 0) with false by lia.
  destruct (esc_loop _ _ r); reflexivity.
Qed.
Lemma esc_last st ty x b r : b < 256 -> type_of b = ty -> d_next st ty = 0 ->
  esc_loop st x (b :: r) = opt_app (esc_accept (d_code st x b) b) (esc_loop 0 (d_code st x b) r).
Proof.
  intros H <- E. rewrite esc_step by exact H. cbv zeta. rewrite E.
  change (0 =? 1) with false. change (0 =? 0) with true. cbv iota. destruct (esc_loop _ _ r); reflexivity.
Qed.
Lemma esc_accept_high c b : 128 <= c -> esc_accept c b = [b].
Proof. intros H. unfold esc_accept. repeat match goal with |- context [c =? ?k] => replace (c =? k) with false by lia end.
  now replace (c <=? 31) with false by lia. Qed.
Lemma opt_app_app a b o : opt_app a (opt_app b o) = opt_app (a ++ b) o.
Proof. destruct o; cbn [opt_app]; [now rewrite app_assoc|reflexivity]. Qed.

Lemma type_cont b : 128 <= b < 192 -> type_of b = 1 \/ type_of b = 9 \/ type_of b = 7.
Proof. intros H. unfold type_of. replace (b <? 128) with false by lia. destruct (b <? 144); [auto|]. destruct (b <? 160); [auto|].
  replace (b <? 192) with true by lia. auto. Qed.
(** States waiting for one, two or three more arbitrary continuation bytes: 2, 3 and 7. *)
Lemma esc_end x b r : 128 <= b < 192 -> 2 <= x < 67108864 ->
  esc_loop 2 x (b :: r) = opt_app [b] (esc_loop 0 0 r).
Proof.
  intros H Hx.
  rewrite (esc_last 2 (type_of b)); [|lia|reflexivity|].
  - rewrite d_code_cont by lia. rewrite esc_accept_high by lia. f_equal. apply esc_loop_0.
  - destruct (type_cont b H) as [ -> | [ -> | -> ] ]; reflexivity.
Qed.
Lemma esc_mid2 x b r : 128 <= b < 192 -> x < 67108864 ->
  esc_loop 3 x (b :: r) = opt_app [b] (esc_loop 2 (x * 64 + (b - 128)) r).
Proof.
  intros H Hx. rewrite (esc_cont 3 2 (type_of b)); try lia; try reflexivity.
  - rewrite d_code_cont by lia. reflexivity.
  - destruct (type_cont b H) as [ -> | [ -> | -> ] ]; reflexivity.
Qed.

(** One code point goes through the automaton. *)
Lemma esc_enc c r : scalar c -> esc_loop 0 0 (enc8_1 c ++ r) = opt_app (esc_cp c) (esc_loop 0 0 r).
Proof.
  intros Hs. unfold esc_cp, enc8_1. unfold scalar in Hs.
  destruct (c <? 128) eqn:E1.
  { cbn [app]. rewrite (esc_last 0 0); [|lia|unfold type_of; now rewrite E1|reflexivity].
    rewrite d_code_lead by lia. unfold lead_val. rewrite E1. f_equal. apply esc_loop_0. }
  destruct (c <? 2048) eqn:E2.
  { cbn [app]. rewrite (esc_cont 0 2 2); try lia; try reflexivity.
    2: { unfold type_of. repeat match goal with |- context [?a <? ?b] => first [replace (a <? b) with true by lia | replace (a <? b) with false by lia] end. reflexivity. }
    rewrite d_code_lead by lia. rewrite esc_end; [|lia|].
    2: { unfold lead_val. replace (_ <? 128) with false by lia. replace (_ <? 224) with true by lia. lia. }
    rewrite opt_app_app. reflexivity. }
  destruct (c <? 65536) eqn:E3.
  { cbn [app]. set (b0 := 224 + c / 4096). set (b1 := 128 + c / 64 mod 64). set (b2 := 128 + c mod 64).
    assert (H0 : 224 <= b0 < 240) by (unfold b0; lia). assert (H1 : 128 <= b1 < 192) by (unfold b1; lia).
    assert (H2 : 128 <= b2 < 192) by (unfold b2; lia).
    assert (H3 : b0 = 224 -> 160 <= b1) by (unfold b0, b1; lia).
    assert (H4 : b0 = 237 -> b1 < 160) by (unfold b0, b1; lia).
    assert (L : d_code 0 0 b0 = b0 - 224).
    { rewrite d_code_lead by lia. unfold lead_val. replace (_ <? 128) with false by lia.
      replace (_ <? 224) with false by lia. now replace (_ <? 240) with true by lia. }
    assert (Hx : 2 <= (b0 - 224) * 64 + (b1 - 128)) by (destruct (N.eq_dec b0 224); lia).
    clearbody b0 b1 b2.
    assert (T0 : type_of b0 = 10 /\ b0 = 224 \/ type_of b0 = 4 /\ b0 = 237 \/ type_of b0 = 3).
    { unfold type_of. replace (b0 <? 128) with false by lia. replace (b0 <? 144) with false by lia.
      replace (b0 <? 160) with false by lia. replace (b0 <? 192) with false by lia. replace (b0 <? 194) with false by lia.
      replace (b0 <? 224) with false by lia. destruct (b0 =? 224) eqn:?; [left; lia|]. destruct (b0 =? 237) eqn:?; [right; left; lia|].
      replace (b0 <? 240) with true by lia. auto. }
    destruct T0 as [[T0 B0]|[[T0 B0]|T0]].
    - rewrite (esc_cont 0 4 10); try lia; try assumption; try reflexivity. rewrite L.
      rewrite (esc_cont 4 2 7); try lia; try reflexivity.
      2: { unfold type_of. replace (b1 <? 128) with false by lia. replace (b1 <? 144) with false by lia.
           replace (b1 <? 160) with false by lia. now replace (b1 <? 192) with true by lia. }
      rewrite d_code_cont by lia. rewrite esc_end by lia. rewrite !opt_app_app. reflexivity.
    - rewrite (esc_cont 0 5 4); try lia; try assumption; try reflexivity. rewrite L.
      rewrite (esc_cont 5 2 (type_of b1)); try lia; try reflexivity.
      2: { unfold type_of. replace (b1 <? 128) with false by lia. destruct (b1 <? 144); [reflexivity|].
           now replace (b1 <? 160) with true by lia. }
      rewrite d_code_cont by lia. rewrite esc_end by lia. rewrite !opt_app_app. reflexivity.
    - rewrite (esc_cont 0 3 3); try lia; try assumption; try reflexivity. rewrite L.
      rewrite esc_mid2 by lia. rewrite esc_end by lia. rewrite !opt_app_app. reflexivity. }
  cbn [app]. set (b0 := 240 + c / 262144). set (b1 := 128 + c / 4096 mod 64). set (b2 := 128 + c / 64 mod 64). set (b3 := 128 + c mod 64).
  assert (H0 : 240 <= b0 < 245) by (unfold b0; lia). assert (H1 : 128 <= b1 < 192) by (unfold b1; lia).
  assert (H2 : 128 <= b2 < 192) by (unfold b2; lia). assert (H2' : 128 <= b3 < 192) by (unfold b3; lia).
  assert (H3 : b0 = 240 -> 144 <= b1) by (unfold b0, b1; lia).
  assert (H4 : b0 = 244 -> b1 < 144) by (unfold b0, b1; lia).
  assert (L : d_code 0 0 b0 = b0 - 240).
  { rewrite d_code_lead by lia. unfold lead_val. replace (_ <? 128) with false by lia.
    replace (_ <? 224) with false by lia. now replace (_ <? 240) with false by lia. }
  assert (Hx : 2 <= (b0 - 240) * 64 + (b1 - 128)) by (destruct (N.eq_dec b0 240); lia).
  clearbody b0 b1 b2 b3.
  assert (T0 : type_of b0 = 11 /\ b0 = 240 \/ type_of b0 = 5 /\ b0 = 244 \/ type_of b0 = 6).
  { unfold type_of. replace (b0 <? 128) with false by lia. replace (b0 <? 144) with false by lia.
    replace (b0 <? 160) with false by lia. replace (b0 <? 192) with false by lia. replace (b0 <? 194) with false by lia.
    replace (b0 <? 224) with false by lia. replace (b0 =? 224) with false by lia. replace (b0 =? 237) with false by lia.
    replace (b0 <? 240) with false by lia. destruct (b0 =? 240) eqn:?; [left; lia|]. destruct (b0 <? 244) eqn:?; [auto|].
    replace (b0 =? 244) with true by lia. right; left; lia. }
  destruct T0 as [[T0 B0]|[[T0 B0]|T0]].
  - rewrite (esc_cont 0 6 11); try lia; try assumption; try reflexivity. rewrite L.
    rewrite (esc_cont 6 3 (type_of b1)); try lia; try reflexivity.
    2: { unfold type_of. replace (b1 <? 128) with false by lia. replace (b1 <? 144) with false by lia.
         destruct (b1 <? 160); [reflexivity|]. now replace (b1 <? 192) with true by lia. }
    rewrite d_code_cont by lia. rewrite esc_mid2 by lia. rewrite esc_end by lia. rewrite !opt_app_app. reflexivity.
  - rewrite (esc_cont 0 8 5); try lia; try assumption; try reflexivity. rewrite L.
    rewrite (esc_cont 8 3 1); try lia; try reflexivity.
    2: { unfold type_of. replace (b1 <? 128) with false by lia. now replace (b1 <? 144) with true by lia. }
    rewrite d_code_cont by lia. rewrite esc_mid2 by lia. rewrite esc_end by lia. rewrite !opt_app_app. reflexivity.
  - rewrite (esc_cont 0 7 6); try lia; try assumption; try reflexivity. rewrite L.
    rewrite (esc_cont 7 3 (type_of b1)); try lia; try reflexivity.
    2: { destruct (type_cont b1 H1) as [ -> | [ -> | -> ] ]; reflexivity. }
    rewrite d_code_cont by lia. rewrite esc_mid2 by lia. rewrite esc_end by lia. rewrite !opt_app_app. reflexivity.
Qed.
Lemma dump_escaped_enc cs : Forall scalar cs -> dump_escaped (enc8 cs) = Some (flat_map esc_cp cs).
Proof.
  unfold dump_escaped. induction cs as [|c cs IH]; intros F; [reflexivity|].
  inversion_clear F as [|? ? Hs F']. rewrite enc8_cons, esc_enc by exact Hs. rewrite IH by exact F'. reflexivity.
Qed.

(** Conversely, the automaton accepts only UTF-8.  What each state is waiting for: *)
Lemma wait2 b : b < 256 -> d_next 2 (type_of b) <> 1 -> 128 <= b < 192 /\ d_next 2 (type_of b) = 0.
Proof.
  intros H N1. pose proof (byte_all (fun b => (d_next 2 (type_of b) =? 1) || (((128 <=? b) && (b <? 192)) && (d_next 2 (type_of b) =? 0))) eq_refl b H) as K.
  cbv beta in K. apply orb_prop in K as [K|K]; [apply N.eqb_eq in K; easy|]. apply andb_prop in K as [K1 K2]. apply N.eqb_eq in K2. split; [lia|exact K2].
Qed.
Lemma wait3 b : b < 256 -> d_next 3 (type_of b) <> 1 -> 128 <= b < 192 /\ d_next 3 (type_of b) = 2.
Proof.
  intros H N1. pose proof (byte_all (fun b => (d_next 3 (type_of b) =? 1) || (((128 <=? b) && (b <? 192)) && (d_next 3 (type_of b) =? 2))) eq_refl b H) as K.
  cbv beta in K. apply orb_prop in K as [K|K]; [apply N.eqb_eq in K; easy|]. apply andb_prop in K as [K1 K2]. apply N.eqb_eq in K2. split; [lia|exact K2].
Qed.
Lemma wait4 b : b < 256 -> d_next 4 (type_of b) <> 1 -> 160 <= b < 192 /\ d_next 4 (type_of b) = 2.
Proof.
  intros H N1. pose proof (byte_all (fun b => (d_next 4 (type_of b) =? 1) || (((160 <=? b) && (b <? 192)) && (d_next 4 (type_of b) =? 2))) eq_refl b H) as K.
  cbv beta in K. apply orb_prop in K as [K|K]; [apply N.eqb_eq in K; easy|]. apply andb_prop in K as [K1 K2]. apply N.eqb_eq in K2. split; [lia|exact K2].
Qed.
Lemma wait5 b : b < 256 -> d_next 5 (type_of b) <> 1 -> 128 <= b < 160 /\ d_next 5 (type_of b) = 2.
Proof.
  intros H N1. pose proof (byte_all (fun b => (d_next 5 (type_of b) =? 1) || (((128 <=? b) && (b <? 160)) && (d_next 5 (type_of b) =? 2))) eq_refl b H) as K.
  cbv beta in K. apply orb_prop in K as [K|K]; [apply N.eqb_eq in K; easy|]. apply andb_prop in K as [K1 K2]. apply N.eqb_eq in K2. split; [lia|exact K2].
Qed.
Lemma wait6 b : b < 256 -> d_next 6 (type_of b) <> 1 -> 144 <= b < 192 /\ d_next 6 (type_of b) = 3.
Proof.
  intros H N1. pose proof (byte_all (fun b => (d_next 6 (type_of b) =? 1) || (((144 <=? b) && (b <? 192)) && (d_next 6 (type_of b) =? 3))) eq_refl b H) as K.
  cbv beta in K. apply orb_prop in K as [K|K]; [apply N.eqb_eq in K; easy|]. apply andb_prop in K as [K1 K2]. apply N.eqb_eq in K2. split; [lia|exact K2].
Qed.
Lemma wait7 b : b < 256 -> d_next 7 (type_of b) <> 1 -> 128 <= b < 192 /\ d_next 7 (type_of b) = 3.
Proof.
  intros H N1. pose proof (byte_all (fun b => (d_next 7 (type_of b) =? 1) || (((128 <=? b) && (b <? 192)) && (d_next 7 (type_of b) =? 3))) eq_refl b H) as K.
  cbv beta in K. apply orb_prop in K as [K|K]; [apply N.eqb_eq in K; easy|]. apply andb_prop in K as [K1 K2]. apply N.eqb_eq in K2. split; [lia|exact K2].
Qed.
Lemma wait8 b : b < 256 -> d_next 8 (type_of b) <> 1 -> 128 <= b < 144 /\ d_next 8 (type_of b) = 3.
Proof.
  intros H N1. pose proof (byte_all (fun b => (d_next 8 (type_of b) =? 1) || (((128 <=? b) && (b <? 144)) && (d_next 8 (type_of b) =? 3))) eq_refl b H) as K.
  cbv beta in K. apply orb_prop in K as [K|K]; [apply N.eqb_eq in K; easy|]. apply andb_prop in K as [K1 K2]. apply N.eqb_eq in K2. split; [lia|exact K2].
Qed.
Definition lead_next (b : N) : N :=
  if b <? 128 then 0 else if b <? 194 then 1 else if b <? 224 then 2 else if b =? 224 then 4 else if b =? 237 then 5
  else if b <? 240 then 3 else if b =? 240 then 6 else if b <? 244 then 7 else if b =? 244 then 8 else 1.
Lemma wait0 b : b < 256 -> d_next 0 (type_of b) = lead_next b.
Proof.
  intros H. apply N.eqb_eq. revert b H. apply (byte_all (fun b => d_next 0 (type_of b) =? lead_next b)). vm_compute. reflexivity.
Qed.
Lemma esc_some st x b r : b < 256 -> esc_loop st x (b :: r) <> None ->
  d_next st (type_of b) <> 1 /\ exists y, esc_loop (d_next st (type_of b)) y r <> None.
Proof.
  intros H. rewrite esc_step by exact H. cbv zeta. destruct (d_next st (type_of b) =? 1) eqn:E; [easy|].
  intros K. split; [lia|]. exists (d_code st x b). destruct (esc_loop _ _ r); easy.
Qed.
Lemma esc_nil st x : esc_loop st x [] <> None -> st = 0.
Proof. cbn [esc_loop]. destruct (st =? 0) eqn:E; [lia|easy]. Qed.
Ltac byte1 H b' r' Hb' := (* consume one byte in a waiting state *)
  match type of H with esc_loop ?st ?y ?r <> None =>
    destruct r as [|b' r']; [apply esc_nil in H; discriminate|];
    let F := fresh in
    match goal with B : Forall byte_ok (b' :: r') |- _ => inversion B as [|? ? Hb' F]; subst end
  end.
Lemma esc_dec b r : bytes_ok (b :: r) -> esc_loop 0 0 (b :: r) <> None -> exists c r', dec8_1 (b :: r) = Some (c, r').
Proof.
  intros B H. inversion B as [|? ? Hb Br]; subst. unfold byte_ok in Hb. clear B.
  apply esc_some in H as [N1 [y H]]; [|exact Hb]. rewrite wait0 in N1, H by exact Hb. unfold lead_next in N1, H.
  unfold dec8_1, cont. destruct (b <? 128) eqn:E0; [eauto|].
  destruct (b <? 194) eqn:E1; [easy|].
  destruct (b <? 224) eqn:E2.
  { byte1 H b1 r1 Hb1. unfold byte_ok in Hb1. apply esc_some in H as [M1 [y1 H]]; [|exact Hb1].
    apply wait2 in M1 as [R1 E]; [|exact Hb1].
    replace ((194 <=? b) && true) with true by lia. replace ((128 <=? b1) && (b1 <? 192)) with true by lia. eauto. }
  rewrite andb_false_r. cbv iota.
  destruct (b =? 224) eqn:E3.
  { byte1 H b1 r1 Hb1. unfold byte_ok in Hb1. apply esc_some in H as [M1 [y1 H]]; [|exact Hb1].
    apply wait4 in M1 as [R1 E]; [|exact Hb1]. rewrite E in H.
    byte1 H b2 r2 Hb2. unfold byte_ok in Hb2. apply esc_some in H as [M2 [y2 H]]; [|exact Hb2].
    apply wait2 in M2 as [R2 E']; [|exact Hb2].
    replace ((224 <=? b) && (b <? 240)) with true by lia.
    match goal with |- context [if ?g then _ else _] => replace g with true by lia end. eauto. }
  destruct (b =? 237) eqn:E4.
  { byte1 H b1 r1 Hb1. unfold byte_ok in Hb1. apply esc_some in H as [M1 [y1 H]]; [|exact Hb1].
    apply wait5 in M1 as [R1 E]; [|exact Hb1]. rewrite E in H.
    byte1 H b2 r2 Hb2. unfold byte_ok in Hb2. apply esc_some in H as [M2 [y2 H]]; [|exact Hb2].
    apply wait2 in M2 as [R2 E']; [|exact Hb2].
    replace ((224 <=? b) && (b <? 240)) with true by lia.
    match goal with |- context [if ?g then _ else _] => replace g with true by lia end. eauto. }
  destruct (b <? 240) eqn:E5.
  { byte1 H b1 r1 Hb1. unfold byte_ok in Hb1. apply esc_some in H as [M1 [y1 H]]; [|exact Hb1].
    apply wait3 in M1 as [R1 E]; [|exact Hb1]. rewrite E in H.
    byte1 H b2 r2 Hb2. unfold byte_ok in Hb2. apply esc_some in H as [M2 [y2 H]]; [|exact Hb2].
    apply wait2 in M2 as [R2 E']; [|exact Hb2].
    replace ((224 <=? b) && true) with true by lia.
    match goal with |- context [if ?g then _ else _] => replace g with true by lia end. eauto. }
  rewrite andb_false_r. cbv iota.
  destruct (b =? 240) eqn:E6.
  { byte1 H b1 r1 Hb1. unfold byte_ok in Hb1. apply esc_some in H as [M1 [y1 H]]; [|exact Hb1].
    apply wait6 in M1 as [R1 E]; [|exact Hb1]. rewrite E in H.
    byte1 H b2 r2 Hb2. unfold byte_ok in Hb2. apply esc_some in H as [M2 [y2 H]]; [|exact Hb2].
    apply wait3 in M2 as [R2 E']; [|exact Hb2]. rewrite E' in H.
    byte1 H b3 r3 Hb3. unfold byte_ok in Hb3. apply esc_some in H as [M3 [y3 H]]; [|exact Hb3].
    apply wait2 in M3 as [R3 E'']; [|exact Hb3].
    replace ((240 <=? b) && (b <? 245)) with true by lia.
    match goal with |- context [if ?g then _ else _] => replace g with true by lia end. eauto. }
  destruct (b <? 244) eqn:E7.
  { byte1 H b1 r1 Hb1. unfold byte_ok in Hb1. apply esc_some in H as [M1 [y1 H]]; [|exact Hb1].
    apply wait7 in M1 as [R1 E]; [|exact Hb1]. rewrite E in H.
    byte1 H b2 r2 Hb2. unfold byte_ok in Hb2. apply esc_some in H as [M2 [y2 H]]; [|exact Hb2].
    apply wait3 in M2 as [R2 E']; [|exact Hb2]. rewrite E' in H.
    byte1 H b3 r3 Hb3. unfold byte_ok in Hb3. apply esc_some in H as [M3 [y3 H]]; [|exact Hb3].
    apply wait2 in M3 as [R3 E'']; [|exact Hb3].
    replace ((240 <=? b) && (b <? 245)) with true by lia.
    match goal with |- context [if ?g then _ else _] => replace g with true by lia end. eauto. }
  destruct (b =? 244) eqn:E8; [|easy].
  byte1 H b1 r1 Hb1. unfold byte_ok in Hb1. apply esc_some in H as [M1 [y1 H]]; [|exact Hb1].
  apply wait8 in M1 as [R1 E]; [|exact Hb1]. rewrite E in H.
  byte1 H b2 r2 Hb2. unfold byte_ok in Hb2. apply esc_some in H as [M2 [y2 H]]; [|exact Hb2].
  apply wait3 in M2 as [R2 E']; [|exact Hb2]. rewrite E' in H.
  byte1 H b3 r3 Hb3. unfold byte_ok in Hb3. apply esc_some in H as [M3 [y3 H]]; [|exact Hb3].
  apply wait2 in M3 as [R3 E'']; [|exact Hb3].
  replace ((240 <=? b) && (b <? 245)) with true by lia.
  match goal with |- context [if ?g then _ else _] => replace g with true by lia end. eauto.
Qed.
Lemma esc_wf : forall n s, (List.length s <= n)%nat -> bytes_ok s -> esc_loop 0 0 s <> None -> wf8 s.
Proof.
  induction n as [|n IH]; intros s L B H.
  { destruct s; [|cbn [List.length] in L; lia]. exists []. split; [constructor|reflexivity]. }
  destruct s as [|b r]; [exists []; split; [constructor|reflexivity]|].
  destruct (esc_dec b r B H) as (c & r' & E). apply dec8_1_inv in E as [Hs E]. rewrite E in *.
  rewrite esc_enc in H by exact Hs. assert (Hr : esc_loop 0 0 r' <> None) by (destruct (esc_loop 0 0 r'); easy).
  apply Forall_app in B as [_ B].
  assert (L1 : (1 <= List.length (enc8_1 c))%nat).
  { pose proof (enc8_1_length c) as K. unfold nlen in K. destruct (c <? 128), (c <? 2048), (c <? 65536); lia. }
  rewrite app_length in L.
  destruct (IH r' ltac:(lia) B Hr) as (cs & F & ->).
  exists (c :: cs). split; [now constructor|]. now rewrite enc8_cons.
Qed.
(** [dump_escaped] succeeds exactly on UTF-8. *)
Lemma dump_escaped_iff s : bytes_ok s -> (dump_escaped s <> None <-> wf8 s).
Proof.
  intros B. split.
  - apply (esc_wf (List.length s)); auto.
  - intros (cs & F & ->). rewrite dump_escaped_enc by exact F. easy.
Qed.
