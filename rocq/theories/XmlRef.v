(** Lemmas about references in XML values. *)
From Coq Require Import String List NArith ZArith Lia Bool Arith.
From Coq Require Import ZifyN ZifyNat ZifyBool.
From Verif Require Import Bytes Txt UtfModel UtfSpec UtfProofs StringModel StringProofs XmlModel XmlSpec XmlProofs.
Import ListNotations.
Open Scope N_scope.

(** ** Numbers *)
Fixpoint low_first (base : N) (ds : list N) : N :=
  match ds with [] => 0 | c :: r => digit_of c + base * low_first base r end.
Lemma low_first_app base a b : low_first base (a ++ b) = low_first base a + base ^ N.of_nat (List.length a) * low_first base b.
Proof.
  induction a as [|c a IH]; [change (base ^ N.of_nat (List.length (@nil N))) with 1; cbn [app low_first]; lia|].
  cbn [app low_first List.length]. rewrite IH. rewrite Nat2N.inj_succ, N.pow_succ_r'. lia.
Qed.
Lemma number_rev base ds : number base ds = low_first base (rev ds).
Proof.
  unfold number. rewrite <- (rev_involutive ds) at 1. generalize (rev ds) as r. clear ds.
  induction r as [|c r IH]; [reflexivity|]. cbn [rev low_first]. rewrite fold_left_app. cbn [fold_left]. rewrite IH. lia.
Qed.
Definition good_digit (base c : N) : Prop := ref_digit base c = Some (digit_of c).
Lemma good_dec c : dec_digit c -> good_digit 10 c.
Proof.
  unfold dec_digit, good_digit, ref_digit, digit_of. intros H.
  replace ((48 <=? c) && (c <=? 57)) with true by lia. replace (c <=? 57) with true by lia. reflexivity.
Qed.
Lemma good_hex c : hex_digit c -> good_digit 16 c.
Proof.
  unfold hex_digit, good_digit, ref_digit, digit_of. intros H. change (16 =? 16) with true. cbn [andb].
  destruct H as [H|[H|H]].
  - replace ((48 <=? c) && (c <=? 57)) with true by lia. replace (c <=? 57) with true by lia. reflexivity.
  - replace ((48 <=? c) && (c <=? 57)) with false by lia. replace ((97 <=? c) && (c <=? 102)) with false by lia.
    replace ((65 <=? c) && (c <=? 70)) with true by lia. replace (c <=? 57) with false by lia. replace (c <=? 70) with true by lia. reflexivity.
  - replace ((48 <=? c) && (c <=? 57)) with false by lia. replace ((97 <=? c) && (c <=? 102)) with true by lia.
    replace (c <=? 57) with false by lia. replace (c <=? 70) with false by lia. reflexivity.
Qed.
Lemma ref_value_ok base : forall r b u, Forall (good_digit base) r -> u + b * low_first base r < 4294967296 ->
  ref_value base r (b mod 4294967296) u = Some (u + b * low_first base r).
Proof.
  induction r as [|c r IH]; intros b u F H; cbn [ref_value low_first] in *.
  - rewrite N.mul_0_r, N.add_0_r. reflexivity.
  - inversion_clear F as [|? ? G F']. rewrite G.
    rewrite N.mul_mod_idemp_l by lia. rewrite N.mul_mod_idemp_l by lia.
    rewrite (N.mod_small (b * digit_of c)) by nia.
    rewrite IH; [f_equal; lia|exact F'|]. lia.
Qed.
Lemma upto_none x f (H : f = upto_x /\ x = 120 \/ f = upto_hash /\ x = 35) ds : ~ In x ds -> f ds = ds.
Proof.
  intros I. induction ds as [|c r IH]; [destruct H as [[-> _]|[-> _]]; reflexivity|].
  assert (C : c <> x) by (intros ->; apply I; left; reflexivity).
  assert (R : ~ In x r) by (intros Y; apply I; right; exact Y). specialize (IH R).
  destruct H as [[-> ->]|[-> ->]]; cbn [upto_x upto_hash].
  - rewrite (proj2 (N.eqb_neq c 120) C). rewrite IH. reflexivity.
  - rewrite (proj2 (N.eqb_neq c 35) C). rewrite IH. reflexivity.
Qed.

(** ** UTF-8 *)
Lemma all_below (P : N -> bool) n : forallb P (map N.of_nat (seq 0 n)) = true -> forall x, x < N.of_nat n -> P x = true.
Proof.
  intros H x X. rewrite forallb_forall in H. apply H. apply in_map_iff. exists (N.to_nat x). split; [lia|]. apply in_seq. lia.
Qed.
Lemma mark_ok x : N.land (N.lor x 128) 191 mod 256 = 128 + x mod 64.
Proof.
  assert (A : N.land (N.lor x 128) 191 = N.land (N.lor (x mod 256) 128) 191).
  { change 256 with (2 ^ 8). rewrite <- N.land_ones. change 191 with (N.land (N.ones 8) 191) at 1.
    rewrite N.land_assoc. rewrite N.land_lor_distr_l. change (N.land 128 (N.ones 8)) with 128. reflexivity. }
  rewrite A. replace (x mod 64) with ((x mod 256) mod 64).
  - assert (B : x mod 256 < N.of_nat 256) by (change (N.of_nat 256) with 256; apply N.mod_lt; lia).
    revert B. generalize (x mod 256) as y. intros y B.
    apply N.eqb_eq. apply (all_below (fun y => N.land (N.lor y 128) 191 mod 256 =? 128 + y mod 64) 256); [vm_compute; reflexivity|exact B].
  - rewrite (N.div_mod x 256) at 2 by lia. replace (256 * (x / 256) + x mod 256) with (x mod 256 + (4 * (x / 256)) * 64) by lia.
    rewrite N.mod_add by lia. reflexivity.
Qed.
Lemma utf8_of_ok u : u < 1114112 -> utf8_of u = enc8_1 u.
Proof.
  intros H. unfold utf8_of, enc8_1. rewrite !mark_ok.
  destruct (u <? 128) eqn:A; [reflexivity|]. apply N.ltb_ge in A.
  destruct (u <? 2048) eqn:B.
  - apply N.ltb_lt in B. f_equal. apply N.eqb_eq.
    apply (all_below (fun y => N.lor y 192 mod 256 =? 192 + y) 32); [vm_compute; reflexivity|]. change (N.of_nat 32) with 32. apply N.div_lt_upper_bound; lia.
  - apply N.ltb_ge in B. destruct (u <? 65536) eqn:C.
    + apply N.ltb_lt in C. f_equal. apply N.eqb_eq.
      apply (all_below (fun y => N.lor y 224 mod 256 =? 224 + y) 16); [vm_compute; reflexivity|]. change (N.of_nat 16) with 16. apply N.div_lt_upper_bound; lia.
    + apply N.ltb_ge in C. replace (u <? 2097152) with true by (symmetry; apply N.ltb_lt; lia). f_equal. apply N.eqb_eq.
      apply (all_below (fun y => N.lor y 240 mod 256 =? 240 + y) 8); [vm_compute; reflexivity|]. change (N.of_nat 8) with 8. apply N.div_lt_upper_bound; lia.
Qed.
Lemma scalar_bound u : scalar u -> u < 1114112.
Proof. unfold scalar. lia. Qed.

(** ** References *)
Lemma char_ref_hex ds rest : ds <> [] -> Forall hex_digit ds -> scalar (number 16 ds) ->
  char_ref (120 :: ds ++ 59 :: rest) = Some (enc8_1 (number 16 ds), rest).
Proof.
  intros NE F Sc. cbn [char_ref]. destruct (ds ++ 59 :: rest) as [|x y] eqn:E; [destruct ds; discriminate E|]. rewrite <- E.
  assert (I : forall x, x = 59 \/ x = 120 -> ~ In x ds).
  { intros z Z I. rewrite Forall_forall in F. specialize (F _ I). unfold hex_digit in F. lia. }
  rewrite parse_text_one by (apply I; tauto).
  rewrite (upto_none 120) by (try tauto; rewrite <- in_rev; apply I; tauto).
  pose proof (scalar_bound _ Sc) as B. rewrite number_rev in *.
  change 1 with (1 mod 4294967296). rewrite ref_value_ok.
  - rewrite N.add_0_l, N.mul_1_l. rewrite utf8_of_ok by exact B. reflexivity.
  - apply Forall_rev. revert F. apply Forall_impl. exact good_hex.
  - lia.
Qed.
Lemma char_ref_dec ds rest : ds <> [] -> Forall dec_digit ds -> scalar (number 10 ds) ->
  char_ref (ds ++ 59 :: rest) = Some (enc8_1 (number 10 ds), rest).
Proof.
  intros NE F Sc.
  assert (C : char_ref (ds ++ 59 :: rest) = match parse_text [59] (ds ++ 59 :: rest) with
    | Some (ds, rest) => match ref_value 10 (upto_hash (rev ds)) 1 0 with Some u => Some (utf8_of u, rest) | None => None end
    | None => None end).
  { destruct ds as [|c r]; [congruence|]. inversion_clear F as [|? ? D _]. cbn [app]. unfold dec_digit in D.
    assert (X : c = 48 \/ c = 49 \/ c = 50 \/ c = 51 \/ c = 52 \/ c = 53 \/ c = 54 \/ c = 55 \/ c = 56 \/ c = 57) by lia.
    destruct X as [->|[->|[->|[->|[->|[->|[->|[->|[->| ->]]]]]]]]]; reflexivity. }
  rewrite C.
  assert (I : forall x, x = 59 \/ x = 35 -> ~ In x ds).
  { intros z Z I. rewrite Forall_forall in F. specialize (F _ I). unfold dec_digit in F. lia. }
  rewrite parse_text_one by (apply I; tauto).
  rewrite (upto_none 35) by (try tauto; rewrite <- in_rev; apply I; tauto).
  pose proof (scalar_bound _ Sc) as B. rewrite number_rev in *.
  change 1 with (1 mod 4294967296). rewrite ref_value_ok.
  - rewrite N.add_0_l, N.mul_1_l. rewrite utf8_of_ok by exact B. reflexivity.
  - apply Forall_rev. revert F. apply Forall_impl. exact good_dec.
  - lia.
Qed.
Lemma get_ref f orig out s v rest : char_ref s = Some (v, rest) -> s <> [] ->
  get_loop (S f) true orig out (38 :: 35 :: s) = get_loop f true orig (rev v ++ out) rest.
Proof.
  intros H NE. cbn [get_loop]. change (38 =? 13) with false. change (38 =? 10) with false. change (true && (38 =? 38)) with true.
  cbn [hd tl]. change (35 =? 35) with true. cbv iota. destruct s as [|x y]; [congruence|]. rewrite H. reflexivity.
Qed.
Lemma get_items : forall items fuel orig out, Forall item_ok items ->
  (List.length (flat_map written items) < fuel)%nat ->
  get_loop fuel true orig out (flat_map written items) = Some (rev out ++ flat_map meant items).
Proof.
  induction items as [|i items IH]; intros fuel orig out F L.
  - cbn [flat_map]. rewrite app_nil_r. destruct fuel; reflexivity.
  - inversion_clear F as [|? ? O F']. cbn [flat_map] in *. destruct fuel as [|f]; [lia|]. rewrite app_length in L.
    destruct i as [c|n c|ds|ds]; cbn [written meant item_ok app List.length] in *.
    + destruct O as (C0&C13&C38). cbn [get_loop]. rewrite (proj2 (N.eqb_neq c 13) C13).
      assert (E : hd 0 (flat_map written items) =? 13 = false).
      { destruct items as [|i' items']; [reflexivity|]. inversion_clear F' as [|? ? O' _].
        destruct i'; cbn [flat_map written app hd item_ok] in *; try reflexivity. apply N.eqb_neq. tauto. }
      rewrite E. cbn [andb]. rewrite (proj2 (N.eqb_neq c 38) C38).
      destruct (c =? 10) eqn:E10; [apply N.eqb_eq in E10; subst c|]; rewrite IH by (try assumption; lia); cbn [rev]; rewrite <- app_assoc; reflexivity.
    + rewrite <- app_assoc. cbn [app]. rewrite (get_entity n c).
      * rewrite IH by (try assumption; rewrite app_length in L; lia). cbn [rev]; rewrite <- app_assoc; reflexivity.
      * cbn [In entities] in *. tauto.
    + destruct O as (NE&Fd&NZ&Sc). rewrite <- app_assoc. cbn [app].
      rewrite (get_ref f orig out _ _ _ (char_ref_dec ds _ NE Fd Sc)) by (destruct ds; discriminate).
      rewrite IH by (try assumption; rewrite app_length in L; lia). rewrite rev_app_distr, rev_involutive, <- app_assoc. reflexivity.
    + destruct O as (NE&Fd&NZ&Sc). rewrite <- app_assoc. cbn [app].
      rewrite (get_ref f orig out _ _ _ (char_ref_hex ds _ NE Fd Sc)) by discriminate.
      rewrite IH by (try assumption; rewrite app_length in L; lia). rewrite rev_app_distr, rev_involutive, <- app_assoc. reflexivity.
Qed.
Lemma enc8_no_nul u : u <> 0 -> ~ In 0 (enc8_1 u).
Proof.
  intros H. unfold enc8_1. destruct (u <? 128); [cbn [In]; lia|].
  destruct (u <? 2048); [cbn [In]; generalize (u / 64) (u mod 64); lia|].
  destruct (u <? 65536); [cbn [In]; generalize (u / 4096) ((u / 64) mod 64) (u mod 64); lia|].
  cbn [In]; generalize (u / 262144) ((u / 4096) mod 64) ((u / 64) mod 64) (u mod 64); lia.
Qed.
Lemma meant_no_nul i : item_ok i -> ~ In 0 (meant i).
Proof.
  destruct i as [c|n c|ds|ds]; cbn [item_ok meant]; intros O.
  - cbn [In]. lia.
  - cbn [In] in *. intros [->|[]]. destruct O as [O|[O|[O|[O|[O|[]]]]]]; injection O as _ O; discriminate O.
  - apply enc8_no_nul. tauto.
  - apply enc8_no_nul. tauto.
Qed.
Lemma get_str_items items : Forall item_ok items -> get_str true (flat_map written items) = flat_map meant items.
Proof.
  intros F. unfold get_str. rewrite get_items by (try assumption; lia). cbn [rev app]. apply upto_nul_id.
  intros X. apply in_flat_map in X. destruct X as (i&A&B). rewrite Forall_forall in F. exact (meant_no_nul i (F _ A) B).
Qed.
