(** Properties C27-C30 and C64: identifiers. *)
From Coq Require Import List NArith ZArith Lia Bool String.
From Coq Require Import ZifyN ZifyNat ZifyBool.
From Verif Require Import Bytes BytesProofs Txt UtfSpec UtfModel UtfProofs StringModel UuidModel.
Import ListNotations.
Open Scope N_scope.
Open Scope list_scope.
Ltac Zify.zify_post_hook ::= Z.div_mod_to_equations.

(** ** Specification *)
(** A 128-bit identifier is 16 bytes; its text form is RFC 4122's 8-4-4-4-12 upper-case hexadecimal
    digits, optionally in braces. *)
Definition uuid_ok (u : list N) : Prop := bytes_ok u /\ List.length u = 16%nat.
Definition hexU (v : N) : N := nth (N.to_nat v) (T"0123456789ABCDEF") 0.
Definition hexbytes (l : list N) : list N := flat_map (fun b => [hexU (b / 16); hexU (b mod 16)]) l.
Definition uuid_text (br : bool) (u : list N) : list N :=
  let body := hexbytes (firstn 4 u) ++ T"-" ++ hexbytes (firstn 2 (skipn 4 u)) ++ T"-"
    ++ hexbytes (firstn 2 (skipn 6 u)) ++ T"-" ++ hexbytes (firstn 2 (skipn 8 u)) ++ T"-" ++ hexbytes (skipn 10 u) in
  if br then T"{" ++ body ++ T"}" else body.
Definition upper1 (c : N) : N := if (97 <=? c) && (c <=? 122) then c - 32 else c.

(** ** Lemmas *)
Lemma nth_firstn_small (l : list N) : forall n k, (k < n)%nat -> nth k (firstn n l) 0 = nth k l 0.
Proof. induction l as [|x l IH]; intros [|n] [|k] H; try lia; cbn [firstn nth]; try reflexivity. apply IH. lia. Qed.
Lemma le_val_inj : forall a b, List.length a = List.length b -> bytes_ok a -> bytes_ok b -> le_val a = le_val b -> a = b.
Proof.
  induction a as [|x a IH]; intros [|y b] L Ha Hb E; try discriminate; [reflexivity|].
  inversion_clear Ha as [|? ? Hx Ha']. inversion_clear Hb as [|? ? Hy Hb']. unfold byte_ok in *. cbn [le_val] in E.
  injection L as L. assert (x = y) by lia. assert (le_val a = le_val b) by lia. f_equal; [assumption|now apply IH].
Qed.
Lemma list16 (u : list N) : List.length u = 16%nat -> exists a b c d e f g h i j k l m n o p,
  u = [a;b;c;d;e;f;g;h;i;j;k;l;m;n;o;p].
Proof.
  intros H. do 16 (destruct u as [|? u]; [discriminate H|]). destruct u; [|discriminate H].
  repeat eexists.
Qed.
Lemma lt16_in v : v < 16 -> In v [0;1;2;3;4;5;6;7;8;9;10;11;12;13;14;15].
Proof. intros H. cbn [In]. lia. Qed.
Ltac cases16 v := let I := fresh in assert (I : In v [0;1;2;3;4;5;6;7;8;9;10;11;12;13;14;15]) by (apply lt16_in; assumption);
  cbn [In] in I; repeat (destruct I as [<-|I]); [..|contradiction].
Lemma piece_char_hex v : v < 16 -> piece_char v = hexU v.
Proof. intros H. cases16 v; reflexivity. Qed.
Lemma land255 a : N.land a 255 = a mod 256.
Proof. change 255 with (N.ones 8). now rewrite N.land_ones. Qed.
Lemma land15 a : N.land a 15 = a mod 16.
Proof. change 15 with (N.ones 4). now rewrite N.land_ones. Qed.
Lemma piece_text_hex b : b < 256 -> piece_text b = [hexU (b / 16); hexU (b mod 16)].
Proof.
  intros H. unfold piece_text. rewrite N.shiftr_div_pow2. change (2 ^ 4) with 16. rewrite land15.
  rewrite !piece_char_hex by lia. reflexivity.
Qed.

Lemma to_string_text u br : uuid_ok u -> to_string u br = uuid_text br u.
Proof.
  intros [B L]. destruct (list16 u L) as (a&b&c&d&e&f&g&h&i&j&k&l&m&n&o&p&->).
  unfold bytes_ok, byte_ok in B. rewrite Forall_forall in B.
  unfold to_string, fdata, uuid_text. cbn [nth firstn skipn].
  rewrite !piece_text_hex by (apply B; cbn [In]; tauto).
  destruct br; reflexivity.
Qed.

Lemma digit_hex c v : v < 16 -> upper1 c = hexU v -> digit_for_char c = v.
Proof.
  intros Hv. unfold upper1, digit_for_char.
  cases16 v; match goal with |- _ = ?h -> _ => let x := eval vm_compute in h in change h with x end;
    intros E; repeat match type of E with (if ?b then _ else _) = _ => destruct b eqn:? end;
    repeat match goal with |- (if ?b then _ else _) = _ => destruct b eqn:? end; lia.
Qed.
Lemma hexU_range v : v < 16 -> 48 <= hexU v /\ hexU v < 71.
Proof. intros H. cases16 v; vm_compute; split; discriminate || reflexivity. Qed.
Lemma upper1_ascii c w : upper1 c = w -> w < 97 -> c < 128.
Proof. unfold upper1. destruct (_ && _) eqn:?; lia. Qed.
Lemma upper1_sym c w : upper1 c = w -> (w = 45 \/ w = 123 \/ w = 125) -> c = w.
Proof. unfold upper1. destruct (_ && _) eqn:?; lia. Qed.
Lemma lor_nibbles a b : a < 16 -> b < 16 -> N.lor (N.shiftl a 4 mod 256) (N.land b 15) = a * 16 + b.
Proof. intros Ha Hb. cases16 a; cases16 b; reflexivity. Qed.

(** Text with upper- or lower-case digits is parsed to the identifier it denotes. *)
Lemma parse_text br u s old : uuid_ok u -> map upper1 s = uuid_text br u ->
  from_string old s br = Some (true, u) /\ shape_ok s br = true.
Proof.
  intros [B L] H. destruct (list16 u L) as (a&b&c&d&e&f&g&h&i&j&k&l&m&n&o&p&->). clear L.
  unfold bytes_ok, byte_ok in B. rewrite Forall_forall in B.
  assert (V : forall x, In x [a;b;c;d;e;f;g;h;i;j;k;l;m;n;o;p] -> x < 256) by exact B. clear B.
  assert (Hlen : List.length s = if br then 38%nat else 36%nat).
  { rewrite <- (map_length upper1), H. destruct br; reflexivity. }
  assert (DH : forall x ch1 ch2, In x [a;b;c;d;e;f;g;h;i;j;k;l;m;n;o;p] ->
     upper1 ch1 = hexU (x / 16) -> upper1 ch2 = hexU (x mod 16) ->
     N.lor (N.shiftl (digit_for_char ch1) 4 mod 256) (N.land (digit_for_char ch2) 15) = x /\ ch1 < 128 /\ ch2 < 128).
  { intros x ch1 ch2 Hx E1 E2. specialize (V x Hx).
    rewrite (digit_hex ch1 (x / 16)), (digit_hex ch2 (x mod 16)) by (assumption || lia).
    rewrite lor_nibbles by lia. split; [lia|].
    destruct (hexU_range (x / 16)), (hexU_range (x mod 16)); try lia.
    split; eapply upper1_ascii; try eassumption; lia. }
  destruct br.
  - do 38 (destruct s as [|? s]; [discriminate Hlen|]). destruct s; [|discriminate Hlen].
    change (T"-") with [45] in H; change (T"{") with [123] in H; change (T"}") with [125] in H.
    unfold uuid_text in H. cbn [map hexbytes flat_map firstn skipn app] in H.
    injection H; clear H; intros.
    repeat match goal with E : upper1 ?x = 45 |- _ => apply upper1_sym in E; [subst x|tauto]
      | E : upper1 ?x = 123 |- _ => apply upper1_sym in E; [subst x|tauto]
      | E : upper1 ?x = 125 |- _ => apply upper1_sym in E; [subst x|tauto] end.
    repeat match goal with E1 : upper1 ?c1 = hexU (?x / 16), E2 : upper1 ?c2 = hexU (?x mod 16) |- _ =>
      let P := fresh "P" in pose proof (DH x c1 c2 ltac:(cbn [In]; tauto) E1 E2) as P; clear E1 E2; destruct P as (? & ? & ?) end.
    assert (S : forall s, shape_ok s true = true -> Forall (fun c => c < 128) s ->
      from_string old s true = Some (true, map (digit_for_piece s) offsets_brackets)).
    { intros s0 Hs Ha. unfold from_string. rewrite Hs, to_bytes_ascii by assumption. reflexivity. }
    split; [rewrite S|]; [|reflexivity|repeat (apply Forall_cons; [assumption || lia|]); apply Forall_nil|reflexivity].
    f_equal. f_equal. cbn [map offsets_brackets]. unfold digit_for_piece. cbn [nth].
    congruence.
  - do 36 (destruct s as [|? s]; [discriminate Hlen|]). destruct s; [|discriminate Hlen].
    change (T"-") with [45] in H. unfold uuid_text in H. cbn [map hexbytes flat_map firstn skipn app] in H.
    injection H; clear H; intros.
    repeat match goal with E : upper1 ?x = 45 |- _ => apply upper1_sym in E; [subst x|tauto] end.
    repeat match goal with E1 : upper1 ?c1 = hexU (?x / 16), E2 : upper1 ?c2 = hexU (?x mod 16) |- _ =>
      let P := fresh "P" in pose proof (DH x c1 c2 ltac:(cbn [In]; tauto) E1 E2) as P; clear E1 E2; destruct P as (? & ? & ?) end.
    assert (S : forall s, shape_ok s false = true -> Forall (fun c => c < 128) s ->
      from_string old s false = Some (true, map (digit_for_piece s) offsets_plain)).
    { intros s0 Hs Ha. unfold from_string. rewrite Hs, to_bytes_ascii by assumption. reflexivity. }
    split; [rewrite S|]; [|reflexivity|repeat (apply Forall_cons; [assumption || lia|]); apply Forall_nil|reflexivity].
    f_equal. f_equal. cbn [map offsets_plain]. unfold digit_for_piece. cbn [nth].
    congruence.
Qed.
Lemma uuid_text_upper br u : uuid_ok u -> map upper1 (uuid_text br u) = uuid_text br u.
Proof.
  intros [B L]. destruct (list16 u L) as (a&b&c&d&e&f&g&h&i&j&k&l&m&n&o&p&->). clear L.
  unfold bytes_ok, byte_ok in B. rewrite Forall_forall in B.
  assert (U : forall v, v < 16 -> upper1 (hexU v) = hexU v).
  { intros v Hv. destruct (hexU_range v Hv). unfold upper1. now replace (_ && _) with false by lia. }
  assert (UD : forall x, In x [a;b;c;d;e;f;g;h;i;j;k;l;m;n;o;p] -> upper1 (hexU (x/16)) = hexU (x/16) /\ upper1 (hexU (x mod 16)) = hexU (x mod 16)).
  { intros x Hx. specialize (B x Hx). split; apply U; lia. }
  assert (UB : forall l', incl l' [a;b;c;d;e;f;g;h;i;j;k;l;m;n;o;p] -> map upper1 (hexbytes l') = hexbytes l').
  { induction l' as [|x l' IH]; intros Hi; [reflexivity|]. unfold hexbytes in *. cbn [flat_map app map].
    destruct (UD x) as [-> ->]; [apply Hi; now left|]. rewrite IH; [reflexivity|]. intros y Hy. apply Hi. now right. }
  unfold uuid_text. cbn [firstn skipn].
  assert (UN : map upper1 (hexbytes [a;b;c;d] ++ T"-" ++ hexbytes [e;f] ++ T"-" ++ hexbytes [g;h] ++ T"-"
     ++ hexbytes [i;j] ++ T"-" ++ hexbytes [k;l;m;n;o;p]) = hexbytes [a;b;c;d] ++ T"-" ++ hexbytes [e;f] ++ T"-" ++ hexbytes [g;h] ++ T"-"
     ++ hexbytes [i;j] ++ T"-" ++ hexbytes [k;l;m;n;o;p]).
  { rewrite !map_app, !UB; [reflexivity| | | | |]; intros y Hy; cbn [In] in *; tauto. }
  destruct br; [|exact UN]. rewrite !map_app in *. rewrite UN. reflexivity.
Qed.

(** C27. The text form is the RFC 4122 form; parsing it restores the identifier whatever the object
    held before; distinct identifiers have distinct texts. *)
Theorem C27_text_form : forall u br, uuid_ok u -> to_string u br = uuid_text br u.
Proof. intros. now apply to_string_text. Qed.
Print Assumptions C27_text_form.
Theorem C27_text_roundtrip : forall u old br, uuid_ok u -> from_string old (to_string u br) br = Some (true, u).
Proof. intros u old br H. rewrite to_string_text by assumption. apply parse_text; [assumption|]. now apply uuid_text_upper. Qed.
Print Assumptions C27_text_roundtrip.
Theorem C27_text_injective : forall u v br, uuid_ok u -> uuid_ok v -> to_string u br = to_string v br -> u = v.
Proof.
  intros u v br Hu Hv E. pose proof (C27_text_roundtrip u [] br Hu) as A. rewrite E in A.
  rewrite (C27_text_roundtrip v [] br Hv) in A. congruence.
Qed.
Print Assumptions C27_text_injective.
Definition u0 : list N := [9;233;93;151;54;76;67;213;138;223;255;76;224;236;65;167].
Example C27_ex : uuid_ok u0 /\ to_string u0 true = T"{09E95D97-364C-43D5-8ADF-FF4CE0EC41A7}".
Proof. split; [split; [repeat (apply Forall_cons; [unfold byte_ok; lia|]); apply Forall_nil|]|]; reflexivity. Qed.

(** C28. Parsing: text of the exact shape with digits of either case gives the identifier it denotes;
    text of another length, or without the separators (and braces) in place, is rejected without
    changing the object, and the converting constructor then gives the zero identifier. *)
Definition separators (br : bool) : list (nat * N) :=
  if br then [(0%nat, 123); (9%nat, 45); (14%nat, 45); (19%nat, 45); (24%nat, 45); (37%nat, 125)]
  else [(8%nat, 45); (13%nat, 45); (18%nat, 45); (23%nat, 45)].
Definition has_shape (br : bool) (s : list N) : Prop :=
  List.length s = (if br then 38 else 36)%nat /\ forall i c, In (i, c) (separators br) -> nth_error s i = Some c.
Lemma get_at_error s i c : c <> 0 -> (get_at s i =? c) = true <-> nth_error s i = Some c.
Proof.
  intros Hc. rewrite N.eqb_eq. unfold get_at. split.
  - intros <-. apply nth_error_nth'. destruct (Nat.lt_ge_cases i (List.length s)); [assumption|]. rewrite nth_overflow in Hc by assumption. congruence.
  - now apply nth_error_nth.
Qed.
Lemma shape_iff s br : shape_ok s br = true <-> has_shape br s.
Proof.
  unfold shape_ok, has_shape, separators, nlen. destruct br; rewrite !andb_true_iff, !get_at_error by lia.
  - split.
    + intros ((((((A & ?) & ?) & ?) & ?) & ?) & ?). split; [lia|]. cbn [In].
      intros i c Hi. repeat destruct Hi as [[= <- <-]|Hi]; assumption || contradiction.
    + intros (A & B). repeat apply conj; try (apply B; cbn [In]; tauto). lia.
  - split.
    + intros ((((A & ?) & ?) & ?) & ?). split; [lia|]. cbn [In].
      intros i c Hi. repeat destruct Hi as [[= <- <-]|Hi]; assumption || contradiction.
    + intros (A & B). repeat apply conj; try (apply B; cbn [In]; tauto). lia.
Qed.
Theorem C28_parse : forall br u s old, uuid_ok u -> map upper1 s = uuid_text br u -> from_string old s br = Some (true, u).
Proof. intros. now apply parse_text. Qed.
Print Assumptions C28_parse.
Example C28_parse_ex : map upper1 (T"{09e95D97-364C-43d5-8ADF-FF4CE0EC41A7}") = uuid_text true u0
  /\ from_string (repeat 7 16) (T"{09e95D97-364C-43d5-8ADF-FF4CE0EC41A7}") true = Some (true, u0).
Proof. vm_compute. split; reflexivity. Qed.

Theorem C28_rejected : forall br s old, from_string old s br = Some (false, old) <-> ~ has_shape br s.
Proof.
  intros br s old. rewrite <- shape_iff. unfold from_string. destruct (shape_ok s br) eqn:E; [|split; [discriminate|reflexivity]].
  destruct (to_bytes s); split; intros H; try discriminate; now elim H.
Qed.
Print Assumptions C28_rejected.
Theorem C28_constructor : forall uninit s, ~ has_shape true s -> uuid_of_text uninit s = Some zero_uuid.
Proof. intros uninit s H. unfold uuid_of_text. apply (C28_rejected true s uninit) in H. now rewrite H. Qed.
Print Assumptions C28_constructor.
Example C28_rejected_ex : uuid_of_text u0 (T"09e95D97-364C-43d5-8ADF-FF4CE0EC41A7") = Some zero_uuid
  /\ uuid_of_text u0 (T"{09e95D97-364C-43d5-8ADF-FF4CE0EC41A7)") = Some zero_uuid.
Proof. vm_compute. split; reflexivity. Qed.

(** The digits are not checked (the macro THROW_VWFC_EXCEPTION only prints): text that denotes no
    identifier is accepted, bad digits read as 0; two different texts give one identifier. *)
Theorem C28_strict_refuted : exists s u old, from_string old s true = Some (true, u)
  /\ (forall v, uuid_ok v -> map upper1 s <> uuid_text true v)
  /\ exists s', s' <> s /\ map upper1 s' = uuid_text true u.
Proof.
  exists (T"{1xyz5678-....-9?BC-DEF0-1234 6789?BC}"), [16;0;86;120;0;0;144;188;222;240;18;52;6;120;144;188], [].
  split; [vm_compute; reflexivity|]. split.
  - intros v Hv E. destruct (parse_text true v (T"{1xyz5678-....-9?BC-DEF0-1234 6789?BC}") [] Hv E) as [A _].
    vm_compute in A. injection A as <-. vm_compute in E. discriminate.
  - exists (T"{10005678-0000-90BC-DEF0-1234067890BC}"). split; [discriminate|vm_compute; reflexivity].
Qed.
Print Assumptions C28_strict_refuted.
(** An unpaired surrogate in the digits makes the parser throw. *)
Theorem C28_throw_refuted : exists s old, has_shape false s /\ from_string old s false = None.
Proof.
  exists (55296 :: T"0000000-0000-0000-0000-000000000000"), []. split; [apply shape_iff|]; vm_compute; reflexivity.
Qed.
Print Assumptions C28_throw_refuted.
(** Whatever is accepted: the result is an identifier, one byte per digit pair. *)
Lemma digit_small c : digit_for_char c < 16.
Proof. unfold digit_for_char. repeat match goal with |- (if ?b then _ else _) < _ => destruct b eqn:? end; lia. Qed.
Theorem C28_accepted_ok : forall br s old u, from_string old s br = Some (true, u) -> uuid_ok u /\ has_shape br s.
Proof.
  intros br s old u. rewrite <- shape_iff. unfold from_string. destruct (shape_ok s br); [|discriminate].
  destruct (to_bytes s) as [p|]; [|discriminate]. intros E.
  assert (E' : u = map (digit_for_piece p) (if br then offsets_brackets else offsets_plain)) by congruence.
  split; [|reflexivity]. subst u. split; [|destruct br; reflexivity]. apply Forall_forall. intros x Hx.
  apply in_map_iff in Hx as (o & <- & _). unfold byte_ok, digit_for_piece.
  rewrite lor_nibbles by apply digit_small. pose proof (digit_small (nth o p 0)). pose proof (digit_small (nth (S o) p 0)). lia.
Qed.
Print Assumptions C28_accepted_ok.

(** C29. Words, arrays and the platform struct. *)
Definition word_ok (a : N) : Prop := a < 2 ^ 32.
Definition no_overflow (u : list N) : Prop := nth 3 u 0 < 128 /\ nth 7 u 0 < 128 /\ nth 11 u 0 < 128 /\ nth 15 u 0 < 128.
Lemma sum4 x y z w : x < 256 -> y < 256 -> z < 256 -> w < 256 -> let v := x + y * 256 + z * 65536 + w * 16777216 in
  v < two32 /\ word_bytes v = [x; y; z; w].
Proof.
  intros Hx Hy Hz Hw v. unfold two32. split; [unfold v; clear - Hx Hy Hz Hw; lia|]. unfold word_bytes.
  rewrite !land255, !N.shiftr_div_pow2. change (2^8) with 256. change (2^16) with 65536. change (2^24) with 16777216.
  assert (E0 : v mod 256 = x) by (symmetry; apply N.mod_unique with (q := y + z * 256 + w * 65536); [assumption|unfold v; ring]).
  assert (E1 : v / 256 = y + z * 256 + w * 65536)
    by (symmetry; apply N.div_unique with (r := x); [assumption|unfold v; ring]).
  assert (E2 : v / 65536 = z + w * 256)
    by (symmetry; apply N.div_unique with (r := x + y * 256); [clear - Hx Hy; lia|unfold v; ring]).
  assert (E3 : v / 16777216 = w)
    by (symmetry; apply N.div_unique with (r := x + y * 256 + z * 65536); [clear - Hx Hy Hz; lia|unfold v; ring]).
  rewrite E0, E1, E2, E3.
  assert (E4 : (y + z * 256 + w * 65536) mod 256 = y)
    by (symmetry; apply N.mod_unique with (q := z + w * 256); [assumption|ring]).
  assert (E5 : (z + w * 256) mod 256 = z) by (symmetry; apply N.mod_unique with (q := w); [assumption|ring]).
  rewrite E4, E5, (N.mod_small w) by assumption. reflexivity.
Qed.
Lemma list4_inj (a b c d a' b' c' d' : N) : [a; b; c; d] = [a'; b'; c'; d'] -> a = a' /\ b = b' /\ c = c' /\ d = d'.
Proof. intros H. repeat apply conj; congruence. Qed.
Lemma int_sum_wraps v : v < two32 -> int_sum true v = Some v.
Proof. intros H. unfold int_sum. destruct (v <? _); [reflexivity|]. now rewrite N.mod_small. Qed.
Lemma int_sum_small w v : v < 2147483648 -> int_sum w v = Some v.
Proof. intros H. unfold int_sum. now replace (v <? _) with true by lia. Qed.

Theorem C29_words_roundtrip : forall u wraps, uuid_ok u -> wraps = true \/ no_overflow u ->
  exists a b c d, get_words wraps u = Some (a, b, c, d) /\ word_ok a /\ word_ok b /\ word_ok c /\ word_ok d
    /\ from_words a b c d = u.
Proof.
  intros u wraps [B L] Ho. destruct (list16 u L) as (a&b&c&d&e&f&g&h&i&j&k&l&m&n&o&p&->). clear L.
  unfold bytes_ok, byte_ok in B. rewrite Forall_forall in B. unfold no_overflow in Ho. cbn [nth] in Ho.
  assert (V : forall x, In x [a;b;c;d;e;f;g;h;i;j;k;l;m;n;o;p] -> x < 256) by exact B. clear B.
  pose proof (sum4 a b c d ltac:(apply V; cbn [In]; tauto) ltac:(apply V; cbn [In]; tauto) ltac:(apply V; cbn [In]; tauto) ltac:(apply V; cbn [In]; tauto)) as (A1 & A2).
  pose proof (sum4 e f g h ltac:(apply V; cbn [In]; tauto) ltac:(apply V; cbn [In]; tauto) ltac:(apply V; cbn [In]; tauto) ltac:(apply V; cbn [In]; tauto)) as (B1 & B2).
  pose proof (sum4 i j k l ltac:(apply V; cbn [In]; tauto) ltac:(apply V; cbn [In]; tauto) ltac:(apply V; cbn [In]; tauto) ltac:(apply V; cbn [In]; tauto)) as (C1 & C2).
  pose proof (sum4 m n o p ltac:(apply V; cbn [In]; tauto) ltac:(apply V; cbn [In]; tauto) ltac:(apply V; cbn [In]; tauto) ltac:(apply V; cbn [In]; tauto)) as (D1 & D2).
  cbv zeta in *. unfold get_words, word, fdata. cbn [nth Nat.add].
  assert (S : forall x y z w, x < 256 -> y < 256 -> z < 256 -> w < 256 -> (wraps = true \/ w < 128) ->
    int_sum wraps (x + y * 256 + z * 65536 + w * 16777216) = Some (x + y * 256 + z * 65536 + w * 16777216)).
  { intros x y z w ? ? ? ? [->|?]; [apply int_sum_wraps; unfold two32; lia|apply int_sum_small; lia]. }
  rewrite !S by (solve [apply V; cbn [In]; tauto] || tauto).
  do 4 eexists. split; [reflexivity|]. unfold word_ok. change (2 ^ 32) with two32. repeat apply conj; try assumption.
  unfold from_words. rewrite A2, B2, C2, D2. reflexivity.
Qed.
Print Assumptions C29_words_roundtrip.
Lemma word_bytes_sum a : a < two32 -> exists x y z w, word_bytes a = [x; y; z; w] /\ x < 256 /\ y < 256 /\ z < 256 /\ w < 256
  /\ x + y * 256 + z * 65536 + w * 16777216 = a.
Proof.
  unfold two32. intros H. unfold word_bytes. rewrite !land255, !N.shiftr_div_pow2.
  change (2^8) with 256. change (2^16) with 65536. change (2^24) with 16777216. do 4 eexists. split; [reflexivity|]. lia.
Qed.
Theorem C29_words_back : forall a b c d, word_ok a -> word_ok b -> word_ok c -> word_ok d ->
  uuid_ok (from_words a b c d) /\ get_words true (from_words a b c d) = Some (a, b, c, d).
Proof.
  unfold word_ok. change (2 ^ 32) with two32. intros a b c d Ha Hb Hc Hd. unfold from_words.
  destruct (word_bytes_sum a Ha) as (x1 & y1 & z1 & w1 & -> & ? & ? & ? & ? & E1).
  destruct (word_bytes_sum b Hb) as (x2 & y2 & z2 & w2 & -> & ? & ? & ? & ? & E2).
  destruct (word_bytes_sum c Hc) as (x3 & y3 & z3 & w3 & -> & ? & ? & ? & ? & E3).
  destruct (word_bytes_sum d Hd) as (x4 & y4 & z4 & w4 & -> & ? & ? & ? & ? & E4).
  split. { split; [|reflexivity]. cbn [app]. repeat (apply Forall_cons; [assumption|]). apply Forall_nil. }
  unfold get_words, word, fdata. cbn [app nth Nat.add]. rewrite E1, E2, E3, E4.
  now rewrite !int_sum_wraps by assumption.
Qed.
Print Assumptions C29_words_back.
(** Identifiers whose words have the top bit set overflow int (undefined behaviour). *)
Theorem C29_overflow_refuted : exists u, uuid_ok u /\ get_words false u = None /\ get_iid false u = None.
Proof.
  exists (repeat 255 16). split; [split; [cbn [repeat]; repeat (apply Forall_cons; [unfold byte_ok; lia|]); apply Forall_nil|reflexivity]|].
  vm_compute. split; reflexivity.
Qed.
Print Assumptions C29_overflow_refuted.

Theorem C29_array_roundtrip : forall u, uuid_ok u -> from_array (get_array u 16) 16 = u.
Proof. intros u [_ L]. destruct (list16 u L) as (a&b&c&d&e&f&g&h&i&j&k&l&m&n&o&p&->). reflexivity. Qed.
Print Assumptions C29_array_roundtrip.
Theorem C29_array_sizes : forall u n, uuid_ok u ->
  get_array u n = firstn n u ++ repeat 0 (n - 16)
  /\ forall arr, List.length arr = n -> from_array arr (N.of_nat n) = firstn 16 (arr ++ repeat 0 16).
Proof.
  intros u n [_ L]. split.
  - unfold get_array. apply nth_ext with (d := 0) (d' := 0).
    + rewrite map_length, seq_length, app_length, firstn_length, repeat_length. lia.
    + rewrite map_length, seq_length. intros k Hk.
      rewrite (nth_indep _ 0 ((fun i => if (16 <=? i)%nat then 0 else fdata u i) 0%nat)) by now rewrite map_length, seq_length.
      rewrite (map_nth (fun i => if (16 <=? i)%nat then 0 else fdata u i)), seq_nth by assumption. cbn [Nat.add].
      destruct (16 <=? k)%nat eqn:E.
      * rewrite app_nth2 by (rewrite firstn_length; lia). now rewrite nth_repeat.
      * rewrite app_nth1 by (rewrite firstn_length; lia). unfold fdata. now rewrite nth_firstn_small by lia.
  - intros arr La. unfold from_array. apply nth_ext with (d := 0) (d' := 0).
    + rewrite map_length, seq_length, firstn_length, app_length, repeat_length. lia.
    + rewrite map_length, seq_length. intros k Hk.
      rewrite (nth_indep _ 0 ((fun i => if N.of_nat i <? N.of_nat n then nth i arr 0 else 0) 0%nat)) by now rewrite map_length, seq_length.
      rewrite (map_nth (fun i => if N.of_nat i <? N.of_nat n then nth i arr 0 else 0)), seq_nth by assumption. cbn [Nat.add].
      rewrite nth_firstn_small by assumption. destruct (N.of_nat k <? N.of_nat n) eqn:E.
      * now rewrite app_nth1 by lia.
      * rewrite app_nth2 by lia. now rewrite nth_repeat.
Qed.
Print Assumptions C29_array_sizes.
Definition iid_ok (i : iid) : Prop :=
  data1 i < 2 ^ 32 /\ data2 i < 2 ^ 16 /\ data3 i < 2 ^ 16 /\ bytes_ok (data4 i) /\ List.length (data4 i) = 8%nat.
Theorem C29_struct_roundtrip : forall u wraps, uuid_ok u -> wraps = true \/ nth 0 u 0 < 128 ->
  exists i, get_iid wraps u = Some i /\ iid_ok i /\ from_iid i = u.
Proof.
  intros u wraps [B L] Ho. destruct (list16 u L) as (a&b&c&d&e&f&g&h&i&j&k&l&m&n&o&p&->). clear L.
  unfold bytes_ok, byte_ok in B. rewrite Forall_forall in B. cbn [nth] in Ho.
  assert (V : forall x, In x [a;b;c;d;e;f;g;h;i;j;k;l;m;n;o;p] -> x < 256) by exact B. clear B.
  assert (a < 256 /\ b < 256 /\ c < 256 /\ d < 256 /\ e < 256 /\ f < 256 /\ g < 256 /\ h < 256) as (? & ? & ? & ? & ? & ? & ? & ?)
    by (repeat apply conj; apply V; cbn [In]; tauto).
  destruct (sum4 d c b a) as (A1 & A2); try assumption. cbv zeta in *.
  unfold get_iid, fdata. cbn [nth Nat.add map seq].
  replace (int_sum wraps _) with (Some (d + c * 256 + b * 65536 + a * 16777216)).
  2: { symmetry. destruct Ho as [->|?]; [now apply int_sum_wraps|apply int_sum_small; lia]. }
  eexists. split; [reflexivity|]. unfold two16. rewrite !N.mod_small by lia. split.
  - unfold iid_ok. cbn [data1 data2 data3 data4]. change (2 ^ 32) with two32. change (2 ^ 16) with 65536. repeat apply conj; try assumption; try lia; [|reflexivity].
    repeat (apply Forall_cons; [apply V; cbn [In]; tauto|]). apply Forall_nil.
  - unfold from_iid. cbn [data1 data2 data3 data4 map seq nth]. unfold word_bytes in A2. apply list4_inj in A2 as (E1 & E2 & E3 & E4).
    rewrite E1, E2, E3, E4. cbn [app]. rewrite !land255, !N.shiftr_div_pow2. change (2 ^ 8) with 256.
    assert (Q : forall x y, x < 256 -> y < 256 -> ((x + y * 256) / 256) mod 256 = y /\ (x + y * 256) mod 256 = x) by (intros; lia).
    destruct (Q f e) as [-> ->]; try assumption. destruct (Q h g) as [-> ->]; try assumption. reflexivity.
Qed.
Print Assumptions C29_struct_roundtrip.
Theorem C29_struct_back : forall i, iid_ok i -> uuid_ok (from_iid i) /\ get_iid true (from_iid i) = Some i.
Proof.
  intros [d1 d2 d3 d4] (H1 & H2 & H3 & H4 & H5). cbn [data1 data2 data3 data4] in *. change (2 ^ 32) with two32 in H1.
  change (2 ^ 16) with 65536 in H2, H3.
  do 8 (destruct d4 as [|? d4]; [discriminate H5|]). destruct d4; [|discriminate H5].
  destruct (word_bytes_sum d1 H1) as (x1 & y1 & z1 & w1 & E & ? & ? & ? & ? & E1). unfold word_bytes in E.
  apply list4_inj in E as (F1 & F2 & F3 & F4). unfold from_iid. cbn [data1 data2 data3 data4 map seq nth app]. rewrite F1, F2, F3, F4.
  rewrite !land255, !N.shiftr_div_pow2. change (2 ^ 8) with 256. split.
  - split; [|reflexivity]. repeat (apply Forall_cons; [assumption || (unfold byte_ok; lia)|]). exact H4.
  - unfold get_iid, fdata. cbn [nth Nat.add map seq]. rewrite E1, int_sum_wraps by assumption.
    f_equal. f_equal; unfold two16; lia.
Qed.
Print Assumptions C29_struct_back.
Example C29_ex : get_words false (from_words 1 2 3 2147483647) = Some (1, 2, 3, 2147483647)
  /\ get_iid true u0 = Some (mkIid 166288791 13900 17365 [138;223;255;76;224;236;65;167]).
Proof. vm_compute. split; reflexivity. Qed.

(** Equality of identifiers is equality of the 16 bytes. *)
Theorem C29_equality : forall u v, uuid_ok u -> uuid_ok v -> (uuid_eq u v = true <-> u = v).
Proof.
  intros u v [B L] [B' L']. destruct (list16 u L) as (a&b&c&d&e&f&g&h&i&j&k&l&m&n&o&p&->).
  destruct (list16 v L') as (a'&b'&c'&d'&e'&f'&g'&h'&i'&j'&k'&l'&m'&n'&o'&p'&->).
  unfold uuid_eq, half, fdata. cbn [map seq nth Nat.add Nat.mul]. rewrite andb_true_iff, !N.eqb_eq. split.
  - intros [E1 E2]. unfold bytes_ok in *.
    change [a;b;c;d;e;f;g;h;i;j;k;l;m;n;o;p] with ([a;b;c;d;e;f;g;h] ++ [i;j;k;l;m;n;o;p]) in *.
    change [a';b';c';d';e';f';g';h';i';j';k';l';m';n';o';p'] with ([a';b';c';d';e';f';g';h'] ++ [i';j';k';l';m';n';o';p']) in *.
    apply Forall_app in B as [P Q], B' as [P' Q'].
    apply le_val_inj in E1; [|reflexivity|assumption..]. apply le_val_inj in E2; [|reflexivity|assumption..]. now rewrite E1, E2.
  - intros E. injection E. intros. subst. split; reflexivity.
Qed.
Print Assumptions C29_equality.

(** C30. *)
Definition alphabet_ok (arr : list N) : Prop := NoDup arr /\ Forall (fun c => 0 < c /\ c < 128) arr.
Lemma digits_inj n : forall count a b, n <> 0 -> a < n ^ N.of_nat count -> b < n ^ N.of_nat count ->
  digits count a n = digits count b n -> a = b.
Proof.
  induction count as [|k IH]; intros a b Hn Ha Hb E.
  - change (n ^ N.of_nat 0) with 1 in *. lia.
  - cbn [digits] in E. injection E as E1 E2.
    rewrite Nat2N.inj_succ, N.pow_succ_r' in Ha, Hb.
    apply IH in E2; [|assumption| |]; [|apply N.div_lt_upper_bound; assumption..].
    rewrite (N.div_mod a n), (N.div_mod b n) by assumption. now rewrite E1, E2.
Qed.
Lemma digits_range n : n <> 0 -> forall count a, Forall (fun d => d < n) (digits count a n).
Proof.
  intros Hn. induction count as [|k IH]; intros a; cbn [digits]; [constructor|].
  constructor; [now apply N.mod_lt|apply IH].
Qed.
Lemma digits_length count : forall a n, List.length (digits count a n) = count.
Proof. induction count; intros; cbn [digits List.length]; [reflexivity|]. now rewrite IHcount. Qed.

Lemma symbol_map_inj arr : alphabet_ok arr -> forall x y, Forall (fun d => d < nlen arr) x -> Forall (fun d => d < nlen arr) y ->
  map (fun i => get_at arr (N.to_nat i) mod 256) x = map (fun i => get_at arr (N.to_nat i) mod 256) y -> x = y.
Proof.
  intros [ND A]. rewrite Forall_forall in A. induction x as [|i x IH]; intros [|j y] Hx Hy E; try discriminate; [reflexivity|].
  inversion_clear Hx as [|? ? Hi Hx']. inversion_clear Hy as [|? ? Hj Hy']. cbn [map] in E.
  assert (E1 : get_at arr (N.to_nat i) mod 256 = get_at arr (N.to_nat j) mod 256) by congruence.
  assert (E2 : map (fun i => get_at arr (N.to_nat i) mod 256) x = map (fun i => get_at arr (N.to_nat i) mod 256) y) by congruence.
  f_equal; [|now apply IH]. unfold get_at, nlen in *.
  assert (Hi' : (N.to_nat i < List.length arr)%nat) by lia. assert (Hj' : (N.to_nat j < List.length arr)%nat) by lia.
  pose proof (A _ (nth_In arr 0 Hi')) as P. pose proof (A _ (nth_In arr 0 Hj')) as Q.
  rewrite !N.mod_small in E1 by lia. apply NoDup_nth with (i := N.to_nat i) (j := N.to_nat j) in E1; try assumption. lia.
Qed.

Lemma encode_text wraps u arr a b c d : alphabet_ok arr -> arr <> [] -> get_words wraps u = Some (a, b, c, d) ->
  encode wraps u arr = Some (encode_chars [a; b; c; d] arr).
Proof.
  intros [ND A] Hne E. unfold encode. rewrite E.
  replace (nlen arr =? 0) with false by (destruct arr; [congruence|rewrite nlen_cons; lia]).
  rewrite Forall_forall in A.
  assert (F : Forall (fun c => 0 < c /\ c < 128) (encode_chars [a; b; c; d] arr)).
  { unfold encode_chars. apply Forall_forall. intros x Hx. apply in_map_iff in Hx as (i & <- & Hi).
    assert (R : Forall (fun d => d < nlen arr) (flat_map (fun w => digits 6 w (nlen arr)) [a; b; c; d])).
    { cbn [flat_map]. rewrite !Forall_app. repeat apply conj; try apply digits_range; try apply Forall_nil; destruct arr; try congruence; rewrite nlen_cons; lia. }
    rewrite Forall_forall in R. specialize (R i Hi). unfold get_at, nlen in *.
    assert (Hi' : (N.to_nat i < List.length arr)%nat) by lia. pose proof (A _ (nth_In arr 0 Hi')). rewrite N.mod_small by lia. assumption. }
  unfold set_from_chars. rewrite upto_nul_id.
  - apply from_bytes_ascii. revert F. apply Forall_impl. lia.
  - intros C. rewrite Forall_forall in F. apply F in C. lia.
Qed.

Theorem C30_injective : forall wraps arr u v t, uuid_ok u -> uuid_ok v -> alphabet_ok arr -> 41 <= nlen arr ->
  encode wraps u arr = Some t -> encode wraps v arr = Some t -> u = v.
Proof.
  intros wraps arr u v t Hu Hv Ha Hn Eu Ev.
  assert (Hne : arr <> []). { intros ->. vm_compute in Hn. now apply Hn. }
  assert (W : forall x y, encode wraps x arr = Some y -> exists a b c d, get_words wraps x = Some (a, b, c, d)).
  { intros x y. unfold encode. destruct (get_words wraps x) as [[[[a b] c] d]|]; [|discriminate]. repeat eexists. }
  assert (R : forall x a b c d, uuid_ok x -> get_words wraps x = Some (a, b, c, d) -> a < two32 /\ b < two32 /\ c < two32 /\ d < two32 /\ from_words a b c d = x).
  { intros x a b c d Hx Ex.
    destruct (C29_words_roundtrip x true Hx (or_introl eq_refl)) as (a' & b' & c' & d' & E & ? & ? & ? & ? & ?).
    assert (S : forall s, int_sum wraps s = None \/ int_sum wraps s = int_sum true s).
    { intros s. unfold int_sum. destruct (s <? _); [now right|]. destruct wraps; [now right|now left]. }
    assert (get_words true x = Some (a, b, c, d)).
    { rewrite <- Ex. unfold get_words, word in *.
      repeat match goal with |- context [int_sum true ?s] => let Z := fresh in destruct (S s) as [Z|Z]; [rewrite Z in Ex; repeat match type of Ex with context [match ?m with _ => _ end] => destruct m end; discriminate|rewrite <- Z; clear Z] end.
      reflexivity. }
    assert ((a, b, c, d) = (a', b', c', d')) as [= -> -> -> ->] by congruence. repeat apply conj; assumption. }
  destruct (W u t Eu) as (a & b & c & d & Wu). destruct (W v t Ev) as (a' & b' & c' & d' & Wv).
  destruct (R u _ _ _ _ Hu Wu) as (A1 & A2 & A3 & A4 & A5). destruct (R v _ _ _ _ Hv Wv) as (B1 & B2 & B3 & B4 & B5).
  rewrite (encode_text wraps u arr a b c d Ha Hne Wu) in Eu. rewrite (encode_text wraps v arr a' b' c' d' Ha Hne Wv) in Ev.
  assert (E : encode_chars [a; b; c; d] arr = encode_chars [a'; b'; c'; d'] arr) by congruence.
  assert (Hn0 : nlen arr <> 0) by lia.
  apply symbol_map_inj in E; [|assumption| |].
  2,3: cbn [flat_map]; rewrite !Forall_app; repeat apply conj; try apply Forall_nil; now apply digits_range.
  assert (Big : two32 <= nlen arr ^ N.of_nat 6).
  { etransitivity; [|apply N.pow_le_mono_l; exact Hn]. vm_compute. discriminate. }
  cbn [flat_map] in E.
  assert (Sp : forall (x y x' y' : list N), List.length x = List.length x' -> x ++ y = x' ++ y' -> x = x' /\ y = y').
  { induction x as [|p x IH]; intros y [|p' x'] y' HL HE; try discriminate; [now split|]. cbn [List.length app] in *.
    injection HE as -> HE. injection HL as HL. destruct (IH _ _ _ HL HE) as [-> ->]. now split. }
  apply Sp in E as [E1 E]; [|now rewrite !digits_length]. apply Sp in E as [E2 E]; [|now rewrite !digits_length].
  apply Sp in E as [E3 E]; [|now rewrite !digits_length]. apply Sp in E as [E4 _]; [|now rewrite !digits_length].
  apply digits_inj in E1, E2, E3, E4; try assumption; try (eapply N.lt_le_trans; eassumption). congruence.
Qed.
Print Assumptions C30_injective.
(** The encoding always succeeds for such alphabets, with 24 symbols of the alphabet. *)
Theorem C30_total : forall arr u, uuid_ok u -> alphabet_ok arr -> arr <> [] ->
  exists t, encode true u arr = Some t /\ List.length t = 24%nat /\ Forall (fun c => In c arr) t.
Proof.
  intros arr u Hu Ha Hne. destruct (C29_words_roundtrip u true Hu (or_introl eq_refl)) as (a & b & c & d & E & _).
  exists (encode_chars [a; b; c; d] arr). split; [now apply encode_text|]. split; [reflexivity|].
  apply Forall_forall. intros x Hx. unfold encode_chars in Hx. apply in_map_iff in Hx as (i & <- & Hi).
  assert (R : Forall (fun d => d < nlen arr) (flat_map (fun w => digits 6 w (nlen arr)) [a; b; c; d])).
  { cbn [flat_map]. rewrite !Forall_app. repeat apply conj; try apply digits_range; try apply Forall_nil; destruct arr; try congruence; rewrite nlen_cons; lia. }
  rewrite Forall_forall in R. specialize (R i Hi). unfold get_at, nlen in *.
  assert (Hi' : (N.to_nat i < List.length arr)%nat) by lia. pose proof (nth_In arr 0 Hi') as I.
  destruct Ha as [_ A]. rewrite Forall_forall in A. pose proof (A _ I). rewrite N.mod_small by lia. exact I.
Qed.
Print Assumptions C30_total.
(** 41 is sharp: with fewer symbols two identifiers always share an encoding. *)
Theorem C30_small_alphabet_collides : forall arr, alphabet_ok arr -> arr <> [] -> nlen arr <= 40 ->
  exists u v, uuid_ok u /\ uuid_ok v /\ u <> v /\ encode true u arr = encode true v arr.
Proof.
  intros arr Ha Hne Hn. set (n := nlen arr) in *.
  assert (n <> 0). { destruct arr; [congruence|]. unfold n. rewrite nlen_cons. lia. }
  assert (W : n ^ 6 < 2 ^ 32). { apply N.le_lt_trans with (40 ^ 6); [now apply N.pow_le_mono_l|reflexivity]. }
  assert (Z : word_ok 0) by reflexivity.
  destruct (C29_words_back 0 0 0 0 Z Z Z Z) as [U1 U2]. destruct (C29_words_back (n ^ 6) 0 0 0 W Z Z Z) as [V1 V2].
  exists (from_words 0 0 0 0), (from_words (n ^ 6) 0 0 0). split; [assumption|]. split; [assumption|]. split.
  - intros E. rewrite E, V2 in U2. assert (P0 : n ^ 6 = 0) by congruence. revert P0. apply N.pow_nonzero. assumption.
  - rewrite (encode_text true _ arr 0 0 0 0), (encode_text true _ arr (n ^ 6) 0 0 0) by assumption. f_equal.
    unfold encode_chars. f_equal. cbn [flat_map]. f_equal. fold n.
    assert (D : forall k c, (k <= c)%nat -> digits k (n ^ N.of_nat c) n = digits k 0 n).
    { induction k as [|k IH]; intros [|c] Hc; [reflexivity..|lia|]. cbn [digits].
      rewrite Nat2N.inj_succ, N.pow_succ_r', N.mul_comm, N.mod_mul, N.div_mul, N.mod_0_l, N.div_0_l by assumption.
      f_equal. apply IH. lia. }
    symmetry. exact (D 6%nat 6%nat (le_n 6)).
Qed.
Print Assumptions C30_small_alphabet_collides.
Definition abc64 : list N := T"ABCDEFGHIJKLMNOPQRSTUVWXYZabcdefghijklmnopqrstuvwxyz0123456789+-".
Example C30_ex : alphabet_ok abc64 /\ nlen abc64 = 64 /\ encode true u0 abc64 = Some (T"JkeXXC2w0QVDK+9-MBgzeQnC").
Proof.
  split; [split|].
  - unfold abc64. vm_compute. repeat (apply NoDup_cons; [cbn [In]; intros C; repeat (destruct C as [C|C]; [discriminate|]); contradiction|]). apply NoDup_nil.
  - apply Forall_forall. intros x Hx. vm_compute in Hx. repeat (destruct Hx as [<-|Hx]; [lia|]). contradiction.
  - vm_compute. split; reflexivity.
Qed.

(** C64. [VWIID::operator<] is a strict total order whose equivalence is equality. *)
Lemma less_list_spec : forall a b, List.length a = List.length b ->
  (fst (less_list a b) = true <-> a = b) /\
  (fst (less_list a b) = false -> snd (less_list a b) = negb (snd (less_list b a)) /\ fst (less_list b a) = false).
Proof.
  induction a as [|x a IH]; intros [|y b] H; try discriminate; cbn [less_list].
  - split; [split; reflexivity|discriminate].
  - injection H as H. destruct (IH b H) as [A B]. destruct (x =? y) eqn:E.
    + assert (x = y) by lia. subst y. rewrite N.eqb_refl. split; [|exact B].
      rewrite A. split; congruence.
    + replace (y =? x) with false by lia. cbn [fst snd]. split; [split; [discriminate|intros [= -> ->]; lia]|]. intros _. lia.
Qed.
(** Specification: the first component that differs decides. *)
Definition iid_key (i : iid) : list N := [data1 i; data2 i; data3 i] ++ data4 i.
Fixpoint lex_lt (a b : list N) : Prop :=
  match a, b with
  | x :: a', y :: b' => x < y \/ (x = y /\ lex_lt a' b')
  | [], _ :: _ => True
  | _, [] => False
  end.
Lemma lex_less : forall a b, List.length a = List.length b ->
  (lex_lt a b <-> (let '(e, l) := less_list a b in l && negb e = true)).
Proof.
  induction a as [|x a IH]; intros [|y b] H; try discriminate; cbn [less_list lex_lt]; [split; [tauto|discriminate]|].
  injection H as H. specialize (IH b H). destruct (x =? y) eqn:E.
  - rewrite <- IH. split; [intros [?|[_ ?]]; [lia|assumption]|intros ?; right; split; [lia|assumption]].
  - rewrite andb_true_iff. split; [intros [?|[? _]]; lia|lia].
Qed.
Lemma iid_lt_lex a b : iid_ok a -> iid_ok b -> (iid_lt a b = true <-> lex_lt (iid_key a) (iid_key b)).
Proof.
  intros (_ & _ & _ & _ & La) (_ & _ & _ & _ & Lb). unfold iid_key. rewrite lex_less by (cbn [List.length app]; now rewrite La, Lb).
  unfold iid_lt. cbn [app less_list]. destruct (data1 a =? data1 b); [|apply iff_refl]. destruct (data2 a =? data2 b); [|apply iff_refl].
  destruct (data3 a =? data3 b); [|apply iff_refl]. destruct (less_list _ _). apply iff_refl.
Qed.
Lemma iid_key_inj a b : iid_key a = iid_key b -> a = b.
Proof. destruct a as [p q r t], b as [p' q' r' t']. unfold iid_key. cbn [data1 data2 data3 data4 app]. now intros [= -> -> -> ->]. Qed.
Lemma lex_irr a : ~ lex_lt a a.
Proof. induction a as [|x a IH]; cbn [lex_lt]; [tauto|]. intros [?|[_ ?]]; [lia|tauto]. Qed.
Lemma lex_trans : forall a b c, lex_lt a b -> lex_lt b c -> lex_lt a c.
Proof.
  induction a as [|x a IH]; intros [|y b] [|z c]; cbn [lex_lt]; try tauto.
  intros [?|[-> ?]] [?|[-> ?]]; try (left; lia). right. split; [reflexivity|]. now apply (IH b).
Qed.
Lemma lex_total : forall a b, lex_lt a b \/ a = b \/ lex_lt b a.
Proof.
  induction a as [|x a IH]; intros [|y b]; cbn [lex_lt]; try tauto.
  destruct (N.lt_total x y) as [?|[->|?]]; [tauto| |tauto]. destruct (IH b) as [?|[->|?]]; tauto.
Qed.
Theorem C64_iid_order : forall a b c, iid_ok a -> iid_ok b -> iid_ok c ->
  (iid_lt a b = true <-> lex_lt (iid_key a) (iid_key b))
  /\ iid_lt a a = false
  /\ (iid_lt a b = true -> iid_lt b c = true -> iid_lt a c = true)
  /\ (iid_lt a b = true \/ a = b \/ iid_lt b a = true).
Proof.
  intros a b c Ha Hb Hc. split; [now apply iid_lt_lex|]. split.
  - destruct (iid_lt a a) eqn:E; [|reflexivity]. apply iid_lt_lex in E; try assumption. now apply lex_irr in E.
  - rewrite !iid_lt_lex by assumption. split; [apply lex_trans|].
    destruct (lex_total (iid_key a) (iid_key b)) as [?|[E|?]]; [tauto| |tauto]. apply iid_key_inj in E. tauto.
Qed.
Print Assumptions C64_iid_order.
Example C64_ex : let i := mkIid 1 2 3 [0;0;0;0;0;0;0;9] in let j := mkIid 1 2 3 [0;0;0;0;0;0;1;0] in
  iid_lt i j = true /\ iid_lt j i = false.
Proof. vm_compute. split; reflexivity. Qed.
