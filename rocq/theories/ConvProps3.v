(** C44, C40: identifiers and DMX addresses as attributes. *)
From Coq Require Import List NArith ZArith String Lia Bool.
From Coq Require Import ZifyN ZifyNat ZifyBool.
From Verif Require Import Bytes BytesProofs Txt UtfSpec UtfModel UtfProofs StringModel StringSpec StringProofs StringProps
  UuidModel UuidProps NumModel NumProofs ConvModel ConvProps ConvProps2.
Import ListNotations.
Open Scope N_scope.
Open Scope list_scope.
Ltac Zify.zify_post_hook ::= Z.div_mod_to_equations.

(** ** C44: identifiers *)
(** The spaced form of the XML format: sixteen pairs of digits separated by spaces. *)
Definition spaced (u : list N) : list N := join_with T" " (map (fun b => hexbytes [b]) u).

Lemma upper1_space c : (upper1 c =? 32) = (c =? 32).
Proof. unfold upper1. destruct (_ && _) eqn:?; lia. Qed.
Lemma filter_upper s : map upper1 (filter (fun x => negb (x =? 32)) s) = filter (fun x => negb (x =? 32)) (map upper1 s).
Proof.
  induction s as [|c s IH]; [reflexivity|]. cbn [map filter]. rewrite upper1_space. destruct (negb (c =? 32)); cbn [map]; congruence.
Qed.
Lemma hex_no_space v : v < 16 -> negb (hexU v =? 32) = true.
Proof. intros H. destruct (hexU_range v H). lia. Qed.
Lemma filter_spaced : forall u, bytes_ok u -> filter (fun x => negb (x =? 32)) (spaced u) = hexbytes u.
Proof.
  assert (P : forall b, b < 256 -> filter (fun x => negb (x =? 32)) (hexbytes [b]) = hexbytes [b]).
  { intros b Hb. apply filter_id. intros c Hc. cbn in Hc. destruct Hc as [<-|[<-|[]]]; apply hex_no_space; lia. }
  induction u as [|b u IH]; intros B; [reflexivity|]. inversion_clear B as [|? ? Hb B']. unfold byte_ok in Hb.
  specialize (IH B'). destruct u as [|b' u].
  - cbn [spaced map join_with]. rewrite P by exact Hb. reflexivity.
  - change (spaced (b :: b' :: u)) with (hexbytes [b] ++ [32] ++ spaced (b' :: u)).
    rewrite !filter_app, P, IH by exact Hb. reflexivity.
Qed.
Lemma seq_upper v w a n : map upper1 v = w -> map upper1 (map (get_at v) (seq a n)) = map (get_at w) (seq a n).
Proof.
  intros <-. rewrite map_map. apply map_ext. intros i. unfold get_at.
  rewrite <- (map_nth upper1 v 0). reflexivity.
Qed.
Lemma uuid_input_spaced u s : uuid_ok u -> map upper1 s = spaced u ->
  exists t, uuid_input s = Ok (Some t) /\ map upper1 t = uuid_text true u.
Proof.
  intros [B L] H. assert (L47 : nlen s = 47).
  { rewrite <- (nlen_map upper1), H. destruct (list16 u L) as (a&b&c&d&e&f&g&h&i&j&k&l&m&n&o&p&->). reflexivity. }
  unfold uuid_input. rewrite L47. cbn [N.eqb Pos.eqb]. rewrite replace1_ok by (rewrite L47; reflexivity). cbn [bind].
  eexists. split; [reflexivity|].
  set (v := filter _ s). assert (Hv : map upper1 v = hexbytes u) by (unfold v; rewrite filter_upper, H; apply filter_spaced, B).
  rewrite !map_app. rewrite !(seq_upper v _ _ _ Hv).
  destruct (list16 u L) as (a&b&c&d&e&f&g&h&i&j&k&l&m&n&o&p&->). reflexivity.
Qed.
Lemma uuid_input_plain u s : uuid_ok u -> map upper1 s = uuid_text false u ->
  exists t, uuid_input s = Ok (Some t) /\ map upper1 t = uuid_text true u.
Proof.
  intros [B L] H. assert (L36 : nlen s = 36).
  { rewrite <- (nlen_map upper1), H. destruct (list16 u L) as (a&b&c&d&e&f&g&h&i&j&k&l&m&n&o&p&->). reflexivity. }
  unfold uuid_input. rewrite L36. cbn [N.eqb Pos.eqb]. eexists. split; [reflexivity|].
  rewrite !map_app, H. reflexivity.
Qed.
(** Both accepted forms, digits in either case. *)
Theorem C44_read : forall u s old, uuid_ok u -> map upper1 s = spaced u \/ map upper1 s = uuid_text false u ->
  read_uuid old s = Ok (mkRd u true 0)
  /\ forall wraps w, get_words wraps u = Some w -> forall o, read_mvr_uuid wraps o s = Ok (mkRd w true 0).
Proof.
  intros u s old Hu H.
  assert (E : exists t, uuid_input s = Ok (Some t) /\ map upper1 t = uuid_text true u)
    by (destruct H as [H|H]; [eapply uuid_input_spaced|eapply uuid_input_plain]; eassumption).
  destruct E as (t & E1 & E2). destruct (parse_text true u t zero_uuid Hu E2) as [E3 _]. split.
  - unfold read_uuid. rewrite E1. cbn [bind]. unfold uuid_of_text. rewrite E3.
    destruct t; [discriminate E2|]. reflexivity.
  - intros wraps w Hw o. unfold read_mvr_uuid. rewrite E1. cbn [bind]. rewrite E3, Hw. reflexivity.
Qed.
Print Assumptions C44_read.
Theorem C44_roundtrip : forall u old, uuid_ok u -> read_uuid old (write_uuid u) = Ok (mkRd u true 0).
Proof.
  intros u old Hu. apply C44_read; [exact Hu|]. right. unfold write_uuid. rewrite to_string_text by exact Hu.
  apply uuid_text_upper, Hu.
Qed.
Print Assumptions C44_roundtrip.
Example C44_case : uuid_ok u0 /\ write_uuid u0 = T"09E95D97-364C-43D5-8ADF-FF4CE0EC41A7"
  /\ map upper1 T"09 e9 5d 97 36 4c 43 d5 8a df ff 4c e0 ec 41 a7" = spaced u0
  /\ read_uuid [] T"09 e9 5d 97 36 4c 43 d5 8a df ff 4c e0 ec 41 a7" = Ok (mkRd u0 true 0).
Proof. split; [exact (proj1 C27_ex)|]. vm_compute. repeat split; reflexivity. Qed.
(** Text of another length gives the zero identifier and an error, but the call still reports success. *)
Theorem C44_wrong_length : forall s old, nlen s <> 47 -> nlen s <> 36 -> s <> [] ->
  read_uuid old s = Ok (mkRd zero_uuid true 1)
  /\ forall o, read_mvr_uuid true o s = Ok (mkRd (0, 0, 0, 0) false 0).
Proof.
  intros s old H1 H2 H3. unfold read_uuid, read_mvr_uuid, uuid_input.
  replace (nlen s =? 47) with false by lia. replace (nlen s =? 36) with false by lia.
  replace (nlen s =? 0) with false by (destruct s; [congruence|rewrite nlen_cons; lia]). cbn [bind].
  split; [reflexivity|]. intros o. vm_compute. reflexivity.
Qed.
Print Assumptions C44_wrong_length.
Theorem C44_success_refuted : exists s, read_uuid [] s = Ok (mkRd zero_uuid true 1)
  /\ forall u, uuid_ok u -> map upper1 s <> spaced u /\ map upper1 s <> uuid_text false u.
Proof.
  exists (T"nonsense"). split; [reflexivity|]. intros u [_ L].
  destruct (list16 u L) as (a&b&c&d&e&f&g&h&i&j&k&l&m&n&o&p&->).
  split; intros E; apply (f_equal (@List.length N)) in E; discriminate E.
Qed.
Print Assumptions C44_success_refuted.

(** ** C40: DMX addresses *)
Lemma to_unsigned_Z w z : (0 <= z < 2 ^ Z.of_N w)%Z -> to_unsigned w z = Z.to_N z.
Proof. intros H. unfold to_unsigned. f_equal. apply Z.mod_small, H. Qed.
Lemma u16 z : (0 <= z < 65536)%Z -> to_unsigned 16 z = Z.to_N z.
Proof. intros H. apply to_unsigned_Z. exact H. Qed.
Lemma dec_no_dot n : ~ In 46 (dec n).
Proof. destruct (dec_spec n) as (F & _). apply digits_notin; [unfold digit; lia|exact F]. Qed.
Lemma dec_atoi n : n < 2147483648 -> atoi (dec n) = Ok (Z.of_N n).
Proof.
  intros H. destruct (dec_spec n) as (F & Hn & _). rewrite digits_atoi by assumption. rewrite dec_val.
  unfold int_result. replace (_ && _) with true by lia. reflexivity.
Qed.
Lemma find_dot s t : ~ In 46 s -> tx_find_ch (s ++ 46 :: t) 46 0 false = Some (nlen s).
Proof.
  intros H. pose proof (find_ch_at [] s 46 t 0 H) as F. cbn [app] in F. rewrite nlen_nil, N.add_0_l in F. apply F; lia.
Qed.
Lemma left_app (s t : list N) : Forall digit s -> left (s ++ t) (nlen s) = s.
Proof.
  intros F. unfold left, substr. change (N.to_nat 0) with 0%nat. cbn [skipn]. unfold nlen. rewrite Nat2N.id.
  rewrite firstn_app, firstn_all, Nat.sub_diag, firstn_O, app_nil_r.
  unfold trim_right_invalid. destruct s as [|c s]; [reflexivity|].
  assert (last (c :: s) 0 < 128).
  { destruct (exists_last (l := c :: s)) as (l & x & Ex); [discriminate|]. rewrite Ex, last_last.
    rewrite Ex in F. apply Forall_app in F as [_ F]. apply Forall_inv in F. unfold digit in F. lia. }
  replace ((55296 <=? last (c :: s) 0) && (last (c :: s) 0 <=? 56319)) with false by lia. reflexivity.
Qed.
Lemma right_app (s t : list N) : Forall digit t -> s <> [] -> right (s ++ t) (nlen t) = t.
Proof.
  intros F Hs. unfold right. destruct (_ <=? _) eqn:E.
  - rewrite nlen_app in E. destruct s; [congruence|]. rewrite nlen_cons in E. lia.
  - rewrite nlen_app. replace (N.to_nat (nlen s + nlen t - nlen t)) with (List.length s) by (unfold nlen; lia).
    rewrite skipn_app, skipn_all, Nat.sub_diag, skipn_O. cbn [app].
    unfold trim_left_invalid. destruct t as [|c t]; [reflexivity|]. apply Forall_inv in F. unfold digit in F.
    replace ((56320 <=? c) && (c <=? 57343)) with false by lia. reflexivity.
Qed.
(** The Universe.Address text of two numbers, and what the reader does with it. *)
Definition dotted (u x : N) : list N := dec u ++ T"." ++ dec x.
Lemma read_dotted u x : u < 65536 -> x < 65536 ->
  read_address (dotted u x) =
    let bad := (u =? 0) || (x =? 0) || (512 <? x) in
    Ok (mkRd (Z.to_N (((Z.of_N u - 1) * 512 + Z.of_N x) mod 65536)) (negb bad) (if bad then 1 else 0)).
Proof.
  intros Hu Hx. unfold read_address, dotted.
  destruct (dec_spec u) as (Fu & Nu & _). destruct (dec_spec x) as (Fx & _).
  assert (is_empty (dec u ++ T"." ++ dec x) = false) as -> by (destruct (dec u); [congruence|reflexivity]).
  change (T"." ++ dec x) with (46 :: dec x). rewrite find_dot by apply dec_no_dot.
  destruct (nlen (dec u)) as [|k] eqn:Ek; [destruct (dec u); [congruence|rewrite nlen_cons in Ek; lia]|].
  rewrite <- Ek. rewrite left_app by exact Fu. rewrite dec_atoi by lia. cbn [bind].
  assert (Er : right (dec u ++ 46 :: dec x) (nlen (dec u ++ 46 :: dec x) - nlen (dec u) - 1) = dec x).
  { change (46 :: dec x) with ([46] ++ dec x). rewrite app_assoc.
    replace (nlen ((dec u ++ [46]) ++ dec x) - nlen (dec u) - 1) with (nlen (dec x))
      by (rewrite !nlen_app; change (nlen [46]) with 1; lia).
    apply right_app; [exact Fx|]. destruct (dec u); discriminate. }
  rewrite Er, dec_atoi by lia. cbn [bind]. rewrite !u16_small by assumption.
  unfold to_unsigned at 1. change (2 ^ Z.of_N 16)%Z with 65536%Z. cbv zeta.
  replace (u <=? 0) with (u =? 0) by lia. replace (x <=? 0) with (x =? 0) by lia. reflexivity.
Qed.
Lemma read_plain a : a < 65536 -> read_address (dec a) = Ok (mkRd a (negb (a =? 0)) (if a =? 0 then 1 else 0)).
Proof.
  intros Ha. unfold read_address. destruct (dec_spec a) as (F & Hn & _).
  assert (is_empty (dec a) = false) as -> by (destruct (dec a); [congruence|reflexivity]).
  rewrite find_none by apply dec_no_dot. rewrite dec_atoi by lia. cbn [bind]. rewrite u16_small by exact Ha.
  replace (a <=? 0) with (a =? 0) by lia. reflexivity.
Qed.
Lemma write_address_dec a : write_address a = dec a.
Proof. unfold write_address, write_int, int_text. replace (Z.of_N a <? 0)%Z with false by lia. now rewrite N2Z.id. Qed.

(** An address is read back unchanged, and so is its Universe.Address form (512 addresses per universe,
    both counted from 1). *)
Theorem C40_address_roundtrip : forall a, 1 <= a -> a < 65536 ->
  read_address (write_address a) = Ok (mkRd a true 0)
  /\ read_address (dotted ((a - 1) / 512 + 1) ((a - 1) mod 512 + 1)) = Ok (mkRd a true 0).
Proof.
  intros a H1 H2. split.
  - rewrite write_address_dec, read_plain by exact H2. replace (a =? 0) with false by lia. reflexivity.
  - rewrite read_dotted by lia. cbv zeta. replace (_ || _ || _) with false by lia. cbn [negb].
    rewrite Z.mod_small by lia. do 2 f_equal. lia.
Qed.
Print Assumptions C40_address_roundtrip.
Example C40_case : write_address 1025 = T"1025" /\ dotted 3 1 = T"3.1" /\ read_address T"3.1" = Ok (mkRd 1025 true 0)
  /\ read_address T"1025" = Ok (mkRd 1025 true 0).
Proof. vm_compute. repeat split; reflexivity. Qed.
(** Rejected with an error: 0, an empty text, a universe or address 0, an address above 512. *)
Theorem C40_rejected : (forall u x, u < 65536 -> x < 65536 -> u = 0 \/ x = 0 \/ 512 < x ->
    exists v, read_address (dotted u x) = Ok (mkRd v false 1))
  /\ read_address T"0" = Ok (mkRd 0 false 1) /\ read_address [] = Ok (mkRd 1 false 0).
Proof.
  split; [|split; reflexivity]. intros u x Hu Hx H. rewrite read_dotted by assumption. cbv zeta.
  replace (_ || _ || _) with true by lia. eexists. reflexivity.
Qed.
Print Assumptions C40_rejected.
(** Accepted dotted text within 16 bits denotes the right address; everything else wraps silently. *)
Theorem C40_dotted_partial : forall u x, 1 <= u -> 1 <= x <= 512 -> (u - 1) * 512 + x < 65536 ->
  read_address (dotted u x) = Ok (mkRd ((u - 1) * 512 + x) true 0).
Proof.
  intros u x Hu Hx H. rewrite read_dotted by lia. cbv zeta. replace (_ || _ || _) with false by lia. cbn [negb].
  rewrite Z.mod_small by lia. do 2 f_equal. lia.
Qed.
Print Assumptions C40_dotted_partial.
Theorem C40_wraparound_refuted : exists s t, s = T"129.1" /\ t = T"1" /\ read_address s = Ok (mkRd 1 true 0)
  /\ read_address s = read_address t /\ read_address T"65537" = read_address t
  /\ read_address T"128.512" = Ok (mkRd 0 true 0) /\ read_address T"-5" = Ok (mkRd 65531 true 0).
Proof. exists (T"129.1"), (T"1"). repeat split; vm_compute; reflexivity. Qed.
Print Assumptions C40_wraparound_refuted.
