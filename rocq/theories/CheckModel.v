(** Consistency checks after reading a fixture (GDTFManager.cpp).  The user does not abort ([CheckAbort] is
    false). *)
From Coq Require Import String List NArith ZArith Bool.
From Verif Require Import Bytes Txt StringModel NumModel AttrModel LookupModel.
Import ListNotations.
Open Scope N_scope.

(** ** Logical channels with the same geometry and attribute *)
(** A channel: the name of its geometry ([None] if it could not be resolved) and, for every logical
    channel, the name of its attribute ([None] if it could not be resolved). *)
Definition chan_names := (option (list N) * list (option (list N)))%type.
(** 9119-9124.  The attribute fNoFeature always has the name NoFeature. *)
Definition exempt (a : list N) : bool := txeq a (T"NoFeature") || txeq a (T"Dummy").
(** 9137-9159: the loop over the channels of the mode as they are at this moment. *)
Fixpoint scan_linear (chs : list chan_names) (geo attr : list N) : bool :=
  match chs with
  | [] => false
  | (None, _) :: _ => false
  | (Some g, attrs) :: r =>
    if existsb (fun x => txeq geo g && txeq attr (text_or_empty x)) attrs then true else scan_linear r geo attr
  end.
(** [ResolveDmxLogicalChanRefs], 9093-9172, without a set.  [done]: the channels before, [cur]: the logical
    channels of this channel that are resolved, [todo]: those that are not, [later]: the channels after,
    which are not resolved yet.  One flag per logical channel: is it reported as a duplicate. *)
Fixpoint logical_linear (done : list chan_names) (geo : option (list N)) (cur todo : list (option (list N)))
    (later : list chan_names) : list bool :=
  match todo with
  | [] => []
  | a :: r =>
    let now := done ++ (geo, cur ++ map (fun _ => None) todo) :: later in
    match a with
    | None => false
    | Some t => negb (exempt t) && scan_linear now (text_or_empty geo) t
    end :: logical_linear done geo (cur ++ [a]) r later
  end.
(** [ResolveDmxChannelRefs], 8973-9070, the loop. *)
Definition unresolved (c : chan_names) : chan_names := (None, map (fun _ => None) (snd c)).
Fixpoint mode_linear (done mode : list chan_names) : list bool :=
  match mode with
  | [] => []
  | c :: r => logical_linear done (fst c) [] (snd c) (map unresolved r) ++ mode_linear (done ++ [c]) r
  end.
(** 9126-9132: with a set.  [hash] is std::hash<std::u16string>, [n] the number of buckets. *)
Definition pair_key (geo : option (list N)) (attr : list N) : list N := make_lower (text_or_empty geo ++ T"|" ++ attr).
Fixpoint logical_set (hash : list N -> N) (n : N) (seen : uset) (geo : option (list N)) (todo : list (option (list N))) : list bool * uset :=
  match todo with
  | [] => ([], seen)
  | None :: r => let '(l, s) := logical_set hash n seen geo r in (false :: l, s)
  | Some t :: r =>
    if exempt t then let '(l, s) := logical_set hash n seen geo r in (false :: l, s)
    else
      let key := pair_key geo t in
      let '(l, s) := logical_set hash n (uset_insert hash n seen key) geo r in (uset_count hash n seen key :: l, s)
  end.
Fixpoint mode_set (hash : list N -> N) (n : N) (seen : uset) (mode : list chan_names) : list bool :=
  match mode with
  | [] => []
  | c :: r => let '(l, s) := logical_set hash n seen (fst c) (snd c) in l ++ mode_set hash n s r
  end.
(** 8975-8978: the set is used from 64 channels on. *)
Definition duplicates (hash : list N -> N) (n : N) (mode : list chan_names) : list bool :=
  if 64 <=? N.of_nat (List.length mode) then mode_set hash n (fun _ => []) mode else mode_linear [] mode.

(** ** Overlapping channel functions *)
(** A channel function: its range, the mode master (channel and function, null or not) and the range of
    the mode master. *)
Record mfunc := mkM { m_start : N; m_end : N; m_chan : option N; m_func : option N; m_from : N; m_to : N }.
Inductive problem := MissingMaster | MasterOverlap.
Definition ranges_meet (a b c d : N) : bool := (a <=? d) && (c <=? b).
(** 9344: the same channel or the same function as mode master. *)
Definition same_ptr (a b : option N) : bool := match a, b with Some x, Some y => x =? y | _, _ => false end.
(** 9327-9364: the first later function that overlaps decides. *)
Fixpoint check_later (f : mfunc) (later : list mfunc) : list problem :=
  match later with
  | [] => []
  | g :: r =>
    if ranges_meet (m_start f) (m_end f) (m_start g) (m_end g) then
      match m_chan f, m_func f with
      | None, None => [MissingMaster]
      | _, _ =>
        if same_ptr (m_chan f) (m_chan g) || same_ptr (m_func f) (m_func g) then
          if ranges_meet (m_from f) (m_to f) (m_from g) (m_to g) then [MasterOverlap] else []
        else []
      end
    else check_later f r
  end.
(** [CheckForMissingModeMasters], 9297-9372, for one logical channel. *)
Fixpoint check_masters (fs : list mfunc) : list problem :=
  match fs with [] => [] | f :: r => check_later f r ++ check_masters r end.

(** ** Main attributes *)
(** [ResolveAttribRefs], 8672-8743: the range-based for loop over fAttributes; each element here is the
    feature reference and the main attribute reference of an attribute.  If [getAttributeByRef] appends to
    fAttributes, the iterators of the loop are invalid: undefined behaviour. *)
Fixpoint resolve_attribs {P} (hash : list N -> N) (n : N) (s : @attrs P) (l : list (list N * list N)) : res (@attrs P) :=
  match l with
  | [] => Ok s
  | (feature, main) :: r =>
    if nlen feature =? 0 then resolve_attribs hash n s r
    else if nlen main =? 0 then resolve_attribs hash n s r
    else
      let s' := snd (get_attribute hash n s main) in
      if (List.length (at_list s') =? List.length (at_list s))%nat then resolve_attribs hash n s' r else UB
  end.
