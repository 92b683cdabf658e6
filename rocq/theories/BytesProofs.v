(** Lemmas about [Bytes]. *)
From Coq Require Import List NArith ZArith Lia Bool.
From Coq Require Import ZifyN ZifyNat ZifyBool.
From Verif Require Import Bytes.
Import ListNotations.
Open Scope N_scope.
Ltac Zify.zify_post_hook ::= Z.div_mod_to_equations.

Lemma nlen_app {A} (a b : list A) : nlen (a ++ b) = nlen a + nlen b.
Proof. unfold nlen. rewrite app_length. lia. Qed.

Lemma nlen_cons {A} (a : A) (b : list A) : nlen (a :: b) = 1 + nlen b.
Proof. unfold nlen. cbn [length]. lia. Qed.

Lemma nlen_nil {A} : nlen (@nil A) = 0.
Proof. reflexivity. Qed.

Lemma nlen_0 {A} (l : list A) : nlen l = 0 -> l = [].
Proof. unfold nlen. destruct l; cbn [length]; [reflexivity|lia]. Qed.

Lemma nlen_rev {A} (l : list A) : nlen (rev l) = nlen l.
Proof. unfold nlen. rewrite rev_length. reflexivity. Qed.

Lemma le_bytes_length n v : length (le_bytes n v) = n.
Proof. revert v; induction n as [|n IH]; intros v; cbn [le_bytes length]; [reflexivity|]. rewrite IH. reflexivity. Qed.

Lemma be_bytes_length n v : length (be_bytes n v) = n.
Proof. unfold be_bytes. rewrite rev_length. apply le_bytes_length. Qed.

Lemma nlen_le_bytes n v : nlen (le_bytes n v) = N.of_nat n.
Proof. unfold nlen. rewrite le_bytes_length. reflexivity. Qed.

Lemma nlen_be_bytes n v : nlen (be_bytes n v) = N.of_nat n.
Proof. unfold nlen. rewrite be_bytes_length. reflexivity. Qed.

Lemma le_bytes_ok n v : bytes_ok (le_bytes n v).
Proof.
  revert v; induction n as [|n IH]; intros v; cbn [le_bytes]; constructor; [|apply IH].
  unfold byte_ok. apply N.mod_lt. discriminate.
Qed.

Lemma bytes_ok_rev l : bytes_ok l -> bytes_ok (rev l).
Proof. unfold bytes_ok. intros H. apply Forall_rev. exact H. Qed.

Lemma bytes_ok_app a b : bytes_ok (a ++ b) <-> bytes_ok a /\ bytes_ok b.
Proof. unfold bytes_ok. apply Forall_app. Qed.

Lemma be_bytes_ok n v : bytes_ok (be_bytes n v).
Proof. unfold be_bytes. apply bytes_ok_rev, le_bytes_ok. Qed.

Lemma le_val_bytes n v : v < 256 ^ N.of_nat n -> le_val (le_bytes n v) = v.
Proof.
  revert v; induction n as [|n IH]; intros v Hv; cbn [le_bytes le_val].
  - change (256 ^ N.of_nat 0) with 1 in Hv. lia.
  - rewrite Nat2N.inj_succ, N.pow_succ_r' in Hv. rewrite IH.
    + lia.
    + apply N.div_lt_upper_bound; [discriminate|]. lia.
Qed.

Lemma le_val_bytes_mod n v : le_val (le_bytes n v) = v mod 256 ^ N.of_nat n.
Proof.
  revert v; induction n as [|n IH]; intros v; cbn [le_bytes le_val].
  - change (256 ^ N.of_nat 0) with 1. rewrite N.mod_1_r. reflexivity.
  - rewrite IH, Nat2N.inj_succ, N.pow_succ_r'.
    rewrite N.mod_mul_r; [reflexivity|discriminate|]. apply N.pow_nonzero. discriminate.
Qed.

Lemma le_val_bound l : bytes_ok l -> le_val l < 256 ^ nlen l.
Proof.
  induction l as [|b l IH]; intros H; cbn [le_val].
  - cbn. lia.
  - inversion H as [|x y Hb Hl]; subst. unfold byte_ok in Hb.
    rewrite nlen_cons, N.pow_add_r. specialize (IH Hl).
    change (256 ^ 1) with 256. lia.
Qed.

Lemma le_bytes_val l : bytes_ok l -> le_bytes (length l) (le_val l) = l.
Proof.
  induction l as [|b l IH]; intros H; cbn [le_val length le_bytes]; [reflexivity|].
  inversion H as [|x y Hb Hl]; subst. unfold byte_ok in Hb. f_equal.
  - rewrite (N.mul_comm 256), N.mod_add by discriminate. apply N.mod_small. exact Hb.
  - rewrite (N.mul_comm 256), N.div_add by discriminate.
    rewrite (N.div_small b) by exact Hb. rewrite N.add_0_l. apply IH. exact Hl.
Qed.

Lemma be_val_bytes n v : v < 256 ^ N.of_nat n -> be_val (be_bytes n v) = v.
Proof. intros H. unfold be_val, be_bytes. rewrite rev_involutive. apply le_val_bytes. exact H. Qed.

Lemma be_bytes_val l : bytes_ok l -> be_bytes (length l) (be_val l) = l.
Proof.
  intros H. unfold be_bytes, be_val. rewrite <- (rev_length l).
  rewrite le_bytes_val; [apply rev_involutive | apply bytes_ok_rev; exact H].
Qed.

Lemma be_val_bound l : bytes_ok l -> be_val l < 256 ^ nlen l.
Proof. intros H. unfold be_val. rewrite <- (nlen_rev l). apply le_val_bound. apply bytes_ok_rev. exact H. Qed.

Lemma pow256_4 : 256 ^ N.of_nat 4 = two32. Proof. reflexivity. Qed.
Lemma pow256_2 : 256 ^ N.of_nat 2 = two16. Proof. reflexivity. Qed.
Lemma pow256_8 : 256 ^ N.of_nat 8 = two64. Proof. reflexivity. Qed.

(** ** slices *)
Lemma slice_app_l {A} (a b : list A) : slice 0 (nlen a) (a ++ b) = a.
Proof.
  unfold slice, nlen. rewrite Nat2N.id. cbn [N.to_nat skipn].
  rewrite firstn_app, Nat.sub_diag, firstn_all. cbn [firstn]. apply app_nil_r.
Qed.

Lemma slice_app_r {A} (a b : list A) off n :
  nlen a <= off -> slice off n (a ++ b) = slice (off - nlen a) n b.
Proof.
  unfold slice, nlen. intros H. rewrite skipn_app, skipn_all2 by lia. cbn [app].
  do 2 f_equal. lia.
Qed.

Lemma slice_app_r0 {A} (a b : list A) n : slice (nlen a) n (a ++ b) = slice 0 n b.
Proof. rewrite slice_app_r by lia. rewrite N.sub_diag. reflexivity. Qed.

Lemma slice_app_ll {A} (a b : list A) off n :
  off + n <= nlen a -> slice off n (a ++ b) = slice off n a.
Proof.
  unfold slice, nlen. intros H. rewrite skipn_app, firstn_app, skipn_length.
  replace (N.to_nat n - (length a - N.to_nat off))%nat with 0%nat by lia.
  cbn [firstn]. apply app_nil_r.
Qed.

Lemma slice_all {A} (a : list A) : slice 0 (nlen a) a = a.
Proof. rewrite <- (app_nil_r a) at 2. apply slice_app_l. Qed.

Lemma slice_mid {A} (a b c : list A) off n :
  off = nlen a -> n = nlen b -> slice off n (a ++ b ++ c) = b.
Proof. intros -> ->. rewrite slice_app_r0. apply slice_app_l. Qed.

Lemma slice_length {A} (l : list A) off n : off + n <= nlen l -> nlen (slice off n l) = n.
Proof. unfold slice, nlen. intros H. rewrite firstn_length, skipn_length. lia. Qed.

Lemma slice_length_le {A} (l : list A) off n : nlen (slice off n l) <= n.
Proof. unfold slice, nlen. rewrite firstn_length. lia. Qed.

Lemma slice_ok l off n : bytes_ok l -> bytes_ok (slice off n l).
Proof.
  unfold slice, bytes_ok. intros H. rewrite Forall_forall in *. intros x Hx. apply H.
  eapply In_nth_error in Hx. destruct Hx as [k Hk].
  assert (Hin : In x (skipn (N.to_nat off) l)).
  { apply nth_error_In in Hk. rewrite <- (firstn_skipn (N.to_nat n)). apply in_or_app. left. exact Hk. }
  rewrite <- (firstn_skipn (N.to_nat off)). apply in_or_app. right. exact Hin.
Qed.

Lemma firstn_exact {A} n (a b : list A) : length a = n -> firstn n (a ++ b) = a.
Proof. intros <-. rewrite firstn_app, Nat.sub_diag, firstn_all. cbn [firstn]. apply app_nil_r. Qed.

Lemma skipn_exact {A} n (a b : list A) : length a = n -> skipn n (a ++ b) = b.
Proof. intros <-. rewrite skipn_app, Nat.sub_diag, skipn_all. reflexivity. Qed.
