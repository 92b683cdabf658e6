(** Values of members as text and back. *)
From Coq Require Import String List NArith ZArith Bool Lia.
From Coq Require Import ZifyN ZifyNat ZifyBool.
From Verif Require Import Bytes BytesProofs Txt UtfModel UtfSpec UtfProofs StringModel UuidModel UuidProps NumModel NumProofs ConvModel ConvProps
  ConvProps2 ConvProps3 DmxValProps FloatModel FloatProps VecModel VecProps EnumModel EnumProps DmxModel XmlModel ObjModel ObjSpec.
Import ListNotations.
Open Scope N_scope.
Open Scope list_scope.
Ltac Zify.zify_post_hook ::= idtac.

Lemma Ok_inj {A} (a b : A) : Ok a = Ok b -> a = b.
Proof. intros E. injection E. auto. Qed.
(** ** Text *)
(** ASCII without zero characters and CR. *)
Definition ascii (s : list N) : Prop := Forall (fun c => c < 128 /\ c <> 0 /\ c <> 13) s.
Lemma ascii_app a b : ascii a -> ascii b -> ascii (a ++ b).
Proof. intros A B. apply Forall_app. now split. Qed.
Lemma ascii_good s : ascii s -> good s.
Proof.
  intros A. exists s. split.
  - symmetry. apply enc16_ascii. eapply Forall_impl; [|exact A]. cbv beta. tauto.
  - eapply Forall_impl; [|exact A]. cbv beta. intros c (H & Hz & _). split; [left; lia|exact Hz].
Qed.
Lemma good_bytes s : good s -> exists b, bytes_of s = Ok b /\ text_of b = Ok s.
Proof.
  intros (cs & -> & F). assert (Fs : Forall scalar cs) by (eapply Forall_impl; [|exact F]; cbv beta; tauto).
  assert (Z : upto_nul (enc8 cs) = enc8 cs) by (apply upto_nul_id, enc8_no_nul, F).
  exists (enc8 cs). unfold bytes_of, text_of, set_from_chars.
  assert (to_bytes (enc16 cs) = Some (enc8 cs)) as ->.
  { apply to_bytes_iff; [apply enc16_units; exact Fs|]. eauto. }
  split; [now rewrite Z|]. rewrite Z. assert (from_bytes (enc8 cs) = Some (enc16 cs)) as ->; [apply from_bytes_iff; eauto|reflexivity].
Qed.
Lemma ascii_text b : ascii b -> text_of b = Ok b.
Proof.
  intros A. destruct (ascii_good b A) as (cs & E & F). destruct (good_bytes b (ascii_good b A)) as (b' & B & Tx).
  unfold bytes_of in B. rewrite to_bytes_ascii in B by (eapply Forall_impl; [|exact A]; cbv beta; tauto).
  rewrite upto_nul_id in B; [congruence|]. intros I. unfold ascii in A. rewrite Forall_forall in A. specialize (A 0 I). lia.
Qed.
Lemma digits_ascii s : Forall digit s -> ascii s.
Proof. intros F. eapply Forall_impl; [|exact F]. unfold digit. cbv beta. lia. Qed.
Lemma int_ascii z : ascii (int_text z) /\ int_text z <> [].
Proof.
  destruct (int_text_chars z) as (F & E). split; [|exact E]. eapply Forall_impl; [|exact F]. unfold digit. cbv beta. lia.
Qed.
Lemma join_ascii sep ps : sep < 128 /\ sep <> 0 /\ sep <> 13 -> Forall ascii ps -> ascii (join_with [sep] ps).
Proof. intros H F. apply join_chars; [exact H|exact F]. Qed.
Lemma two_ascii v : ascii (two_digits (Z.of_N v)).
Proof.
  unfold two_digits. assert (A : ascii (itoa (Z.of_N v))) by apply int_ascii.
  destruct (Z.of_N v <? 10)%Z; [apply ascii_app; [|exact A]; repeat constructor; discriminate|exact A].
Qed.
Lemma fl_ascii x : ascii (fl_text 46 x).
Proof.
  destruct x as [neg u|neg|neg]; [|destruct neg; repeat constructor; discriminate..]. cbn [fl_text].
  apply ascii_app; [destruct neg; repeat constructor; discriminate|]. apply ascii_app; [apply digits_ascii, dec_spec|].
  constructor; [repeat split; discriminate|]. apply digits_ascii, six_digits.
Qed.
Lemma fl_nonempty x : fl_text 46 x <> [].
Proof.
  destruct x as [neg u|neg|neg]; cbn [fl_text]; [|destruct neg; discriminate..].
  destruct neg; [discriminate|]. cbn [sign_text app]. destruct (dec_spec (micros u / million)) as (_ & D & _).
  destruct (dec (micros u / million)); [congruence|discriminate].
Qed.

(** ** The length of a number *)
Lemma dec_len v k : v < 2 ^ k -> nlen (dec v) <= k + 1.
Proof.
  intros H. assert (G : forall f n acc, nlen (dec_loop f n acc) <= N.of_nat f + nlen acc).
  { induction f as [|f IH]; intros n acc; cbn [dec_loop]; [lia|]. cbv zeta.
    destruct (n / 10 =? 0); [rewrite nlen_cons; lia|]. specialize (IH (n / 10) ((48 + n mod 10) :: acc)).
    rewrite nlen_cons in IH. lia. }
  unfold dec. specialize (G (S (N.to_nat (N.size v))) v []). rewrite nlen_nil in G.
  assert (N.size v <= k); [|lia]. destruct (N.eq_dec v 0) as [->|Hz]; [apply N.le_0_l|]. rewrite N.size_log2 by lia.
  assert (N.log2 v < k) by (apply N.log2_lt_pow2; [lia|exact H]). lia.
Qed.
Lemma fl_len x : valid x -> nlen (fl_text 46 x) <= 2200.
Proof.
  destruct x as [neg u|neg|neg]; intros V; [|destruct neg; vm_compute; discriminate..].
  destruct V as (_ & V). cbn [fl_text]. rewrite !nlen_app, nlen_cons.
  assert (S1 : nlen (sign_text neg) <= 1) by (destruct neg; vm_compute; discriminate).
  assert (S6 : forall v, nlen (six v) = 6) by reflexivity. rewrite S6.
  assert (M : micros u / million < 2 ^ 2100).
  { assert (Hu : 0 < units) by (vm_compute; reflexivity).
    destruct (near_even_err (u * million) units Hu) as (E & _). fold (micros u) in E.
    assert (Q : micros u / million * million <= micros u).
    { rewrite N.mul_comm. apply N.mul_div_le. unfold million. lia. }
    assert (U2 : 2 ^ 2098 < 2 ^ 2100) by (apply N.pow_lt_mono_r; reflexivity).
    assert (Hb : micros u / million <= u + 1).
    { apply N.nlt_ge. intros L. assert (L2 : (u + 2) * million <= micros u / million * million) by (apply N.mul_le_mono_r; lia).
      assert (L3 : (u + 2) * million <= micros u) by lia. clear Q L L2 V U2.
      assert (Hm : 1 <= million) by (unfold million; lia).
      assert (L4 : (u + 2) * million * units <= micros u * units) by (apply N.mul_le_mono_r; exact L3).
      assert (L5 : u * million <= u * million * units) by nia.
      assert (L6 : 2 * units <= 2 * million * units) by nia.
      generalize dependent (micros u * units). generalize dependent units. intros un Hu. intros.
      replace ((u + 2) * million * un) with (u * million * un + 2 * million * un) in L4 by nia. lia. }
    assert (u + 1 <= 2 ^ 2098) by lia. lia. }
  pose proof (dec_len _ _ M). lia.
Qed.

(** ** Tables of enumerations *)
Definition found_again (t : enum_table) (v : N) : bool :=
  match find (fun p => txeq (enum_write t v) (fst p)) (et_read t) with
  | Some p => snd p =? v
  | None => match et_read_other t with Some x => (x =? v) && negb (et_reports t) | None => false end
  end.
Definition plain_text (s : list N) : bool := forallb (fun c => (c <? 128) && negb (c =? 0) && negb (c =? 13)) s && negb (is_empty s).
Definition enum_fine (k : conv) : bool :=
  match k with KEnum t => forallb (fun v => found_again t v && plain_text (enum_write t v)) (et_values t) | _ => true end.
(** What the member holds before the attribute is read. *)
Definition old_fine (k : conv) (old : val) : bool :=
  match k, old with
  | KColors, VVecs [] => true
  | KColors, _ => false
  | KRotation, VMat (mkMat _ _ _ (Fin false 0, Fin false 0, Fin false 0)) => true
  | KRotation, _ => false
  | KHigh, VDmx _ 0 => true
  | KHigh, _ => false
  | _, _ => true
  end.

(** ** Same values give the same text *)
Lemma kept3_refl_zero : kept3 (zero, zero, zero) (zero, zero, zero).
Proof.
  assert (kept zero zero).
  { split; [|split; [reflexivity|]]. { split; [exists 0, 0; split; [reflexivity|lia]|]. apply N.neq_0_lt_0, N.pow_nonzero. discriminate. }
    exists 0. split; [reflexivity|]. rewrite Z.sub_diag. change (Z.abs 0 * 1000000)%Z with 0%Z. apply Z.pow_nonneg. discriminate. }
  split; [exact H|]. now split.
Qed.
Lemma kept3_text v w : kept3 v w -> row3 46 w = row3 46 v /\ write_color 46 w = write_color 46 v /\ write_vec 46 w = write_vec 46 v.
Proof.
  destruct v as ((a, b), c), w as ((a', b'), c'). intros (A & B & C). unfold row3, write_color, write_vec, row3.
  now rewrite (kept_text _ _ A), (kept_text _ _ B), (kept_text _ _ C).
Qed.
Lemma same_write k reso v v' : same_val v v' -> write_conv k reso v' = write_conv k reso v.
Proof.
  intros [-> | K]; [reflexivity|].
  destruct v as [| x | | | | a | l | m | x y | | | | |], v' as [| x' | | | | a' | l' | m' | x' y' | | | | |]; try contradiction; destruct k; try reflexivity;
    cbn [write_conv]; unfold point; f_equal.
  - exact (kept_text _ _ K).
  - apply kept3_text, K.
  - apply kept3_text, K.
  - induction K as [|v w l l' K1 K2 IH]; [reflexivity|]. cbn [write_colors flat_map]. fold (write_colors 46 l) (write_colors 46 l').
    rewrite IH. now rewrite (proj1 (kept3_text v w K1)).
  - destruct K as (A & B & C & D). unfold write_matrix.
    destruct m as [((a1, a2), a3) ((b1, b2), b3) ((c1, c2), c3) ((d1, d2), d3)], m' as [((a1', a2'), a3') ((b1', b2'), b3') ((c1', c2'), c3') ((d1', d2'), d3')].
    cbn [mU mV mW mO] in *. destruct A as (A1 & A2 & A3), B as (B1 & B2 & B3), C as (C1 & C2 & C3), D as (D1 & D2 & D3). unfold row4.
    now rewrite !(kept_text _ _ A1), !(kept_text _ _ A2), !(kept_text _ _ A3), !(kept_text _ _ B1), !(kept_text _ _ B2), !(kept_text _ _ B3), !(kept_text _ _ C1), !(kept_text _ _ C2), !(kept_text _ _ C3), !(kept_text _ _ D1), !(kept_text _ _ D2), !(kept_text _ _ D3).
  - destruct K as (A & B & C & D). unfold write_rotation.
    destruct (kept3_text _ _ A) as (-> & _), (kept3_text _ _ B) as (-> & _), (kept3_text _ _ C) as (-> & _). reflexivity.
  - destruct K as (A & B). unfold write_doubles. cbn [map]. now rewrite (kept_text _ _ A), (kept_text _ _ B).
Qed.

(** ** Texts are ASCII *)
Ltac lit := repeat constructor; discriminate.
Ltac asc := repeat first [apply ascii_app | apply fl_ascii | apply two_ascii | (apply int_ascii) | lit].
Lemma color_ascii c : ascii (write_color 46 c).
Proof. destruct c as ((x, y), z). unfold write_color. asc. Qed.
Lemma row_ascii c : ascii (row3 46 c).
Proof. destruct c as ((x, y), z). unfold row3. asc. Qed.
Lemma row4_ascii c d : ascii (row4 46 c d).
Proof. destruct c as ((x, y), z). unfold row4. asc. Qed.
Lemma uuid_ascii u : uuid_ok u -> ascii (write_uuid u) /\ write_uuid u <> [].
Proof.
  intros Hu. unfold write_uuid. rewrite to_string_text by exact Hu. destruct Hu as (B & L).
  assert (H : forall l, bytes_ok l -> ascii (hexbytes l)).
  { induction 1 as [|b l Hb Hl IH]; [constructor|]. unfold hexbytes. cbn [flat_map]. fold (hexbytes l).
    assert (X : forall v, v < 16 -> hexU v < 128 /\ hexU v <> 0 /\ hexU v <> 13).
    { intros v Hv. assert (F : ascii (T"0123456789ABCDEF")) by lit. unfold hexU. unfold ascii in F. rewrite Forall_forall in F. apply F, nth_In.
      change (List.length (T"0123456789ABCDEF")) with 16%nat. lia. }
    unfold byte_ok in Hb. constructor; [apply X, N.div_lt_upper_bound; lia|]. constructor; [apply X, N.mod_lt; discriminate|exact IH]. }
  assert (F : forall n l, bytes_ok l -> bytes_ok (firstn n l)) by (intros n l Hl; rewrite <- (firstn_skipn n l) in Hl; now apply Forall_app in Hl).
  assert (G : forall n l, bytes_ok l -> bytes_ok (skipn n l)) by (intros n l Hl; rewrite <- (firstn_skipn n l) in Hl; now apply Forall_app in Hl).
  unfold uuid_text. cbv zeta. split.
  - repeat apply ascii_app; auto; lit.
  - destruct (list16 u L) as (a&b&c&d&e&f&g&h&i&j&k&l&m&n&o&p&->). discriminate.
Qed.
Lemma colors_ascii l : ascii (write_colors 46 l).
Proof. induction l as [|c l IH]; [constructor|]. cbn [write_colors flat_map]. apply ascii_app; [apply row_ascii|exact IH]. Qed.
Lemma offset_ascii o : ascii (write_offset o).
Proof.
  destruct o as (((a, b), c), d). unfold write_offset, write_list. cbn [app]. rewrite app_nil_r. apply join_ascii; [repeat split; discriminate|].
  apply Forall_forall. intros t Ht. apply in_map_iff in Ht as (z & <- & _). apply int_ascii.
Qed.
Lemma hex_ascii v : ascii (write_hex v) /\ write_hex v <> [].
Proof.
  destruct (C43_hex_shape v) as (ds & -> & _ & F & _). split; [|discriminate]. apply ascii_app; [lit|].
  eapply Forall_impl; [|exact F]. unfold hex_digit, digit. cbv beta. lia.
Qed.

Definition may_be_empty (k : conv) : bool := match k with KText | KColors | KOffset => true | _ => false end.
Lemma nonempty_is (t : list N) : t <> [] -> is_empty t = false.
Proof. destruct t; [congruence|reflexivity]. Qed.
Lemma app_nonempty (a b : list N) : a <> [] -> a ++ b <> [].
Proof. destruct a; [congruence|discriminate]. Qed.

Ltac done_with t v' := exists t, v', true; split; [reflexivity|].
(** What is written is read again. *)
Lemma conv_roundtrip k reso v old : bytes_1_4 reso -> val_ok k reso v -> old_fine k old = true -> enum_fine k = true ->
  exists t v' ok, write_conv k reso v = Ok t /\ read_conv k reso old t = Ok (v', ok, 0) /\ same_val v v'
    /\ (k <> KOffset -> ok = true) /\ good t /\ (may_be_empty k = false -> t <> []).
Proof.
  intros HR HV HO HE. destruct C67_int_roundtrip as (I32 & _ & U8 & U32 & SZ).
  destruct k, v; try contradiction; cbn [val_ok] in HV; cbn [write_conv].
  - done_with s (VTxt s). split; [reflexivity|]. split; [now left|]. split; [auto|]. split; [exact HV|discriminate].
  - destruct (kept_read x HV) as (y & A & K). exists (fl_text 46 x), (VDbl y), true. split; [reflexivity|].
    split. { cbn [read_conv]. unfold read_double. rewrite (nonempty_is _ (fl_nonempty x)). change point with 46. rewrite A. reflexivity. }
    split; [now right|]. split; [auto|]. split; [apply ascii_good, fl_ascii|]. intros _. apply fl_nonempty.
  - destruct (int_ascii z) as (A & E). exists (write_int z), (VInt z), true. split; [reflexivity|].
    split. { cbn [read_conv]. unfold write_int at 1. rewrite (nonempty_is _ E), I32 by exact HV. reflexivity. }
    split; [now left|]. split; [auto|]. split; [now apply ascii_good|auto].
  - destruct (int_ascii (Z.of_N n)) as (A & E). exists (write_int (Z.of_N n)), (VNat n), true. split; [reflexivity|].
    split. { cbn [read_conv]. unfold write_int at 1. rewrite (nonempty_is _ E), U32 by exact HV. reflexivity. }
    split; [now left|]. split; [auto|]. split; [now apply ascii_good|auto].
  - destruct (int_ascii (Z.of_N n)) as (A & E). exists (write_int (Z.of_N n)), (VNat n), true. split; [reflexivity|].
    split. { cbn [read_conv]. unfold write_int at 1. rewrite (nonempty_is _ E), U8 by exact HV. reflexivity. }
    split; [now left|]. split; [auto|]. split; [now apply ascii_good|auto].
  - destruct (int_ascii (to_signed 64 (Z.of_N n))) as (A & E). exists (write_size n), (VNat n), true. split; [reflexivity|].
    split. { cbn [read_conv]. unfold write_size at 1, itoa. rewrite (nonempty_is _ E), SZ by exact HV. reflexivity. }
    split; [now left|]. split; [auto|]. split; [now apply ascii_good|auto].
  - destruct (hex_ascii n) as (A & E). exists (write_hex n), (VNat n), true. split; [reflexivity|].
    split. { cbn [read_conv]. rewrite C43_hex_roundtrip by exact HV. reflexivity. }
    split; [now left|]. split; [auto|]. split; [now apply ascii_good|auto].
  - destruct (uuid_ascii u HV) as (A & E). exists (write_uuid u), (VUuid u), true. split; [reflexivity|].
    split. { cbn [read_conv]. rewrite C44_roundtrip by exact HV. reflexivity. }
    split; [now left|]. split; [auto|]. split; [now apply ascii_good|auto].
  - destruct (C75_color v white HV) as (c' & R & K & _). exists (write_color 46 v), (VVec c'), true. split; [reflexivity|].
    split. { cbn [read_conv]. change point with 46. rewrite R. reflexivity. }
    split; [now right|]. split; [auto|]. split; [apply ascii_good, color_ascii|]. intros _. destruct v as ((x, y), z). apply app_nonempty, fl_nonempty.
  - assert (EO : as_vecs old = []) by (destruct old as [| | | | | | [|]| | | | | | |]; try discriminate HO; reflexivity).
    destruct (C75_colors l [] HV) as (l' & R & K & _). exists (write_colors 46 l), (VVecs l'), true. split; [reflexivity|].
    split. { cbn [read_conv]. rewrite EO. change point with 46. rewrite R. reflexivity. }
    split; [now right|]. split; [auto|]. split; [apply ascii_good, colors_ascii|discriminate].
  - destruct (C75_vector v (as_vec old) HV) as (c' & R & K & _). exists (write_vec 46 v), (VVec c'), true. split; [reflexivity|].
    split. { cbn [read_conv]. change point with 46. rewrite R. reflexivity. }
    split; [now right|]. split; [auto|]. split; [apply ascii_good, row_ascii|]. intros _. destruct v as ((x, y), z). discriminate.
  - destruct (C75_matrix true m (as_mat old) HV) as (c' & R & K & _). exists (write_matrix 46 true m), (VMat c'), true. split; [reflexivity|].
    split. { cbn [read_conv]. change point with 46. rewrite R. reflexivity. }
    split; [now right|]. split; [auto|]. split.
    + apply ascii_good. unfold write_matrix. destruct (mO m) as ((a, b), c). repeat apply ascii_app; try apply row4_ascii. lit.
    + intros _. unfold write_matrix. destruct (mO m) as ((a, b), c), (mU m) as ((d, e), f0). discriminate.
  - destruct HV as (HV & HM). destruct (C75_rotation m (as_mat old) HV) as (c' & R & K1 & K2 & K3 & KO & _).
    exists (write_rotation 46 m), (VMat c'), true. split; [reflexivity|].
    split. { cbn [read_conv]. change point with 46. rewrite R. reflexivity. }
    split. { right. split; [exact K1|]. split; [exact K2|]. split; [exact K3|]. rewrite KO, HM.
      assert (mO (as_mat old) = (zero, zero, zero)) as ->; [|apply kept3_refl_zero].
      destruct old as [| | | | | | |[? ? ? (([[|] [|]| |], [[|] [|]| |]), [[|] [|]| |])]| | | | | |]; try discriminate HO; reflexivity. }
    split; [auto|]. split; [apply ascii_good; unfold write_rotation; repeat apply ascii_app; apply row_ascii|].
    intros _. unfold write_rotation. destruct (mU m) as ((d, e), f0). discriminate.
  - destruct HV as (V1 & V2). assert (L : nlen (write_doubles 46 [x; y] false) < two64).
    { unfold write_doubles. cbn [app map join_with]. rewrite app_nil_r, !nlen_app. pose proof (fl_len x V1). pose proof (fl_len y V2).
      change (nlen (T",")) with 1. unfold two64. change (2 ^ 64) with 18446744073709551616. lia. }
    destruct (C75_list [x; y] false [] ltac:(auto) ltac:(discriminate) L) as (l' & R & K & _).
    inversion K as [|? x' ? ? Kx K2]; subst. inversion K2 as [|? y' ? ? Ky K3]; subst. inversion K3; subst.
    exists (write_doubles 46 [x; y] false), (VPt x' y'), true. split; [reflexivity|].
    split. { cbn [read_conv]. change point with 46. rewrite R. reflexivity. }
    split; [right; now split|]. split; [auto|].
    split. { apply ascii_good. unfold write_doubles. apply ascii_app; [constructor|]. apply ascii_app; [|constructor].
      apply join_ascii; [repeat split; discriminate|]. repeat constructor; apply fl_ascii. }
    intros _. unfold write_doubles. cbn [app map join_with]. apply app_nonempty, app_nonempty, fl_nonempty.
  - exists (write_date d), (VDate d), true. split; [reflexivity|].
    split. { cbn [read_conv]. rewrite C42_date_roundtrip by exact HV. reflexivity. }
    split; [now left|]. split; [auto|]. unfold write_date. split; [apply ascii_good; asc|]. intros _. apply app_nonempty, int_ascii.
  - exists (bool_write b), (VFlag b), true. split; [reflexivity|]. split. { cbn [read_conv]. rewrite C38_bool_roundtrip. reflexivity. }
    split; [now left|]. split; [auto|]. split; [apply ascii_good; destruct b; lit|]. destruct b; discriminate.
  - cbn [enum_fine] in HE. rewrite forallb_forall in HE. specialize (HE n HV). apply andb_prop in HE as (F & P).
    exists (enum_write t n), (VNat n), true. split; [reflexivity|]. split.
    { cbn [read_conv]. unfold enum_read. unfold found_again in F.
      destruct (find (fun p => txeq (enum_write t n) (fst p)) (et_read t)) as [p|].
      - apply N.eqb_eq in F. rewrite F. reflexivity.
      - destruct (et_read_other t) as [z|]; [|discriminate]. apply andb_prop in F as (F & Q). apply N.eqb_eq in F. subst z.
        destruct (et_reports t); [discriminate|reflexivity]. }
    split; [now left|]. split; [auto|]. unfold plain_text in P. apply andb_prop in P as (P & Q). split.
    + apply ascii_good. apply Forall_forall. intros c Hc. rewrite forallb_forall in P. specialize (P c Hc). lia.
    + intros _ E. rewrite E in Q. discriminate.
  - exists (write_break z), (VInt z), true. split; [reflexivity|].
    assert (A : ascii (write_break z) /\ write_break z <> []).
    { unfold write_break. destruct (z =? 0)%Z; [split; [lit|discriminate]|apply int_ascii]. }
    split. { cbn [read_conv]. rewrite (nonempty_is _ (proj2 A)), C67_break_roundtrip by exact HV. reflexivity. }
    split; [now left|]. split; [auto|]. split; [now apply ascii_good|]. intros _. apply A.
  - destruct HV as (L & U). exists (write_address n), (VNat n), true. split; [reflexivity|].
    split. { cbn [read_conv]. rewrite (proj1 (C40_address_roundtrip n L U)). reflexivity. }
    split; [now left|]. split; [auto|]. split; [apply ascii_good|intros _]; apply int_ascii.
  - destruct HV as (-> & HV). exists (write_dmx v reso false), (VDmx false v), true. split; [reflexivity|].
    split. { cbn [read_conv]. rewrite (proj1 (C39_same_resolution v reso (as_dmx old) HR) HV). reflexivity. }
    split; [now left|]. split; [auto|]. unfold write_dmx. split; [apply ascii_good; asc|intros _; apply app_nonempty, int_ascii].
  - destruct (C39_none v reso (as_dmx old) HR) as (N1 & N2). exists (write_dmx v reso none), (VDmx none v), true. split; [reflexivity|].
    split. { cbn [read_conv]. destruct none.
      - rewrite N1. subst v. cbn [bind fst snd got rd_val rd_ok rd_errs result]. unfold got, result. cbn [rd_val rd_ok rd_errs].
        assert (as_dmx old = 0) as ->; [|reflexivity]. destruct old as [| | | | | | | | | | | |? [|]|]; try discriminate HO; reflexivity.
      - rewrite (N2 HV). reflexivity. }
    split; [now left|]. split; [auto|]. unfold write_dmx. destruct none; [split; [apply ascii_good; lit|discriminate]|].
    split; [apply ascii_good; asc|intros _; apply app_nonempty, int_ascii].
  - exists (write_offset o), (VOff o). destruct HV as [HV| ->].
    + exists true. split; [reflexivity|]. split. { cbn [read_conv]. rewrite C45_offset_roundtrip by exact HV. reflexivity. }
      split; [now left|]. split; [auto|]. split; [apply ascii_good, offset_ascii|discriminate].
    + exists false. split; [reflexivity|]. split; [vm_compute; reflexivity|]. split; [now left|]. split; [congruence|].
      split; [apply ascii_good, offset_ascii|discriminate].
Qed.

(** Nothing but a text has a CR. *)
Lemma conv_ascii k reso v t : val_ok k reso v -> enum_fine k = true -> write_conv k reso v = Ok t ->
  match v with VTxt s => t = s | _ => ascii t end.
Proof.
  intros HV HE W. destruct k, v; try contradiction; cbn [val_ok] in HV; cbn [write_conv] in W; apply Ok_inj in W; subst; try (apply int_ascii); try reflexivity.
  - apply fl_ascii.
  - apply hex_ascii.
  - now apply uuid_ascii.
  - apply color_ascii.
  - apply colors_ascii.
  - apply row_ascii.
  - unfold write_matrix. destruct (mO m) as ((a, b), c). repeat apply ascii_app; try apply row4_ascii. lit.
  - unfold write_rotation. repeat apply ascii_app; apply row_ascii.
  - unfold write_doubles. apply ascii_app; [constructor|]. apply ascii_app; [|constructor].
    apply join_ascii; [repeat split; discriminate|]. repeat constructor; apply fl_ascii.
  - unfold write_date. asc.
  - destruct b; lit.
  - cbn [enum_fine] in HE. rewrite forallb_forall in HE. specialize (HE n HV). apply andb_prop in HE as (_ & P). unfold plain_text in P.
    apply andb_prop in P as (P & _). apply Forall_forall. intros c Hc. rewrite forallb_forall in P. specialize (P c Hc). lia.
  - unfold write_break. destruct (z =? 0)%Z; [lit|apply int_ascii].
  - unfold write_dmx. asc.
  - unfold write_dmx. destruct none; [lit|]. asc.
  - apply offset_ascii.
Qed.
Lemma no_cr_bytes t b : good t -> bytes_of t = Ok b -> ~ In 13 t -> ~ In 13 b /\ ~ In 0 b.
Proof.
  intros (cs & -> & F) B H. assert (Fs : Forall scalar cs) by (eapply Forall_impl; [|exact F]; cbv beta; tauto).
  unfold bytes_of in B. assert (E : to_bytes (enc16 cs) = Some (enc8 cs)) by (apply to_bytes_iff; [apply enc16_units; exact Fs|]; eauto).
  rewrite E in B. apply Ok_inj in B. rewrite upto_nul_id in B by (apply enc8_no_nul, F). subst b. split; [|apply enc8_no_nul, F].
  clear E Fs. induction F as [|c cs (Hs & Hz) F IH]; [intros []|]. rewrite enc16_cons, in_app_iff in H. rewrite enc8_cons, in_app_iff. intros [K|K]; [|apply IH; tauto].
  apply H. left. assert (c = 13). { unfold enc8_1 in K. repeat destruct (c <? _); cbn [In] in K; lia. }
  subst c. now left.
Qed.
