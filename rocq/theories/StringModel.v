(** [TXString], the text class of the library (GSString.cpp), Linux branches.

    A text is the list of its UTF-16 units ([stdUStr], a std::u16string).  Positions and lengths
    are size_t values, modelled as [N]; where the code can wrap around modulo 2^64 this is modelled.
    [ptrdiff_t] results of the search functions (position or -1) are an [option N].

    [::toupper]/[::tolower] are called in the "C" locale, in which only the ASCII letters change
    (glibc returns any other int unchanged).  The functions of std::basic_string are modelled after
    the C++ standard. *)
From Coq Require Import List NArith ZArith Lia Bool.
From Coq Require Import ZifyN ZifyNat ZifyBool.
From Verif Require Import Bytes.
Import ListNotations.
Open Scope N_scope.

(** ** Case *)
Definition to_upper (c : N) : N := if (97 <=? c) && (c <=? 122) then c - 32 else c.
Definition to_lower (c : N) : N := if (65 <=? c) && (c <=? 90) then c + 32 else c.
(** [MakeUpper]/[MakeLower], GSString.cpp:1385-1441. *)
Definition make_upper (s : list N) : list N := map to_upper s.
Definition make_lower (s : list N) : list N := map to_lower s.

(** std::u16string::compare: lexicographic, a proper prefix is smaller. *)
Fixpoint ustr_compare (a b : list N) : comparison :=
  match a, b with
  | [], [] => Eq
  | [], _ :: _ => Lt
  | _ :: _, [] => Gt
  | x :: a', y :: b' => match x ?= y with Eq => ustr_compare a' b' | c => c end
  end.

(** [Equal], GSString.cpp:2140-2143. *)
Definition equal (a b : list N) : bool := match ustr_compare a b with Eq => true | _ => false end.
(** [CompareNoCase], GSString.cpp:2161-2173. *)
Definition compare_no_case (a b : list N) : comparison := ustr_compare (make_upper a) (make_upper b).
(** [operator==], GSString.cpp:2203-2206 (also [EqualNoCase], 2147-2150). *)
Definition txeq (a b : list N) : bool := match compare_no_case a b with Eq => true | _ => false end.
(** [operator<], GSString.cpp:2310-2313. *)
Definition txlt (a b : list N) : bool := match compare_no_case a b with Lt => true | _ => false end.

(** Hash functions given std::hash<std::u16string> as [h]: [TXString::hash] (GSString.h:524, used by
    std::hash<TXString>, GSString.h:581-588) and [TXStringNoCaseHash] (GDTFManager.h:17-23). *)
Definition tx_hash (h : list N -> N) (s : list N) : N := h s.
Definition tx_hash_no_case (h : list N -> N) (s : list N) : N := h (make_lower s).

(** A std::unordered_map with [n] buckets, hash [hf] and [operator==]: find looks only into the
    bucket of the key, emplace adds a pair unless find succeeds.  Used for [TSymDefMap]
    (SceneDataExchange.h:29) and the indexes of GDTFManager.h:2123-2124, 2854-2864. *)
Definition umap (A : Type) := N -> list (list N * A).
Definition umap_empty {A} : umap A := fun _ => [].
Definition umap_find {A} (hf : list N -> N) (n : N) (m : umap A) (k : list N) : option A :=
  match find (fun p => txeq (fst p) k) (m (hf k mod n)) with Some p => Some (snd p) | None => None end.
Definition umap_emplace {A} (hf : list N -> N) (n : N) (m : umap A) (k : list N) (a : A) : umap A :=
  match umap_find hf n m k with
  | Some _ => m
  | None => fun b => if b =? hf k mod n then (k, a) :: m b else m b
  end.

(** ** std::basic_string searches *)
Fixpoint is_prefix (sub l : list N) : bool :=
  match sub, l with
  | [], _ => true
  | _ :: _, [] => false
  | x :: sub', y :: l' => (x =? y) && is_prefix sub' l'
  end.
Definition head_in (P : N -> bool) (l : list N) : bool := match l with [] => false | c :: _ => P c end.

(** First position at or after [i] (the position of [l] in the text) at which the rest satisfies [P]. *)
Fixpoint scan (P : list N -> bool) (l : list N) (i : N) : option N :=
  if P l then Some i else match l with [] => None | _ :: r => scan P r (i + 1) end.
Definition find_from (P : list N -> bool) (s : list N) (pos : N) : option N :=
  if nlen s <? pos then None else scan P (skipn (N.to_nat pos) s) pos.
(** Last position at or before [i]. *)
Fixpoint rscan (P : list N -> bool) (s : list N) (i : nat) : option N :=
  if P (skipn i s) then Some (N.of_nat i) else match i with O => None | S i' => rscan P s i' end.

(** basic_string::find(str, pos) and find(ch, pos). *)
Definition ustr_find (s sub : list N) (pos : N) : option N := find_from (is_prefix sub) s pos.
Definition ustr_find_ch (s : list N) (ch pos : N) : option N := find_from (head_in (N.eqb ch)) s pos.
(** basic_string::rfind(str, pos), rfind(ch, pos). *)
Definition ustr_rfind (s sub : list N) (pos : N) : option N :=
  if nlen s <? nlen sub then None
  else rscan (is_prefix sub) s (N.to_nat (N.min (nlen s - nlen sub) pos)).
Definition ustr_rfind_if (P : N -> bool) (s : list N) (pos : N) : option N :=
  match s with [] => None | _ :: _ => rscan (head_in P) s (N.to_nat (N.min (nlen s - 1) pos)) end.
Definition mem (set : list N) (c : N) : bool := existsb (N.eqb c) set.

(** ** Search functions of TXString *)
(** [Find(TXString)], GSString.cpp:1710-1737. *)
Definition tx_find (s sub : list N) (posFirst : N) (ignoreCase : bool) : option N :=
  match sub with
  | [] => None
  | _ :: _ =>
    if ignoreCase then ustr_find (make_lower s) (make_lower sub) posFirst
    else ustr_find s sub posFirst
  end.
(** [Find(int)], GSString.cpp:1743-1767. *)
Definition tx_find_ch (s : list N) (ch : N) (posFirst : N) (ignoreCase : bool) : option N :=
  if ignoreCase then ustr_find_ch (make_lower s) (to_lower ch) posFirst else ustr_find_ch s ch posFirst.
(** [ReverseFind(TXString)], GSString.cpp:1784-1810. *)
Definition tx_rfind (s sub : list N) (posLast : N) (ignoreCase : bool) : option N :=
  match sub with
  | [] => None
  | _ :: _ =>
    if ignoreCase then ustr_rfind (make_lower s) (make_lower sub) posLast
    else ustr_rfind s sub posLast
  end.
(** [ReverseFind(int)], GSString.cpp:1817-1840. *)
Definition tx_rfind_ch (s : list N) (ch : N) (posLast : N) (ignoreCase : bool) : option N :=
  if ignoreCase then ustr_rfind_if (N.eqb (to_lower ch)) (make_lower s) posLast
  else ustr_rfind_if (N.eqb ch) s posLast.
(** [FindOneOf], [ReverseFindOneOf], [FindNotOneOf], [ReverseFindNotOneOf], GSString.cpp:1857-1909. *)
Definition find_one_of (s set : list N) (posFirst : N) : option N := find_from (head_in (mem set)) s posFirst.
Definition rfind_one_of (s set : list N) (posLast : N) : option N := ustr_rfind_if (mem set) s posLast.
Definition find_not_one_of (s set : list N) (posFirst : N) : option N :=
  find_from (head_in (fun c => negb (mem set c))) s posFirst.
Definition rfind_not_one_of (s set : list N) (posLast : N) : option N :=
  ustr_rfind_if (fun c => negb (mem set c)) s posLast.
(** [EndsWith], GSString.cpp:2196-2199. *)
Definition ends_with (s suffix : list N) : bool :=
  (nlen suffix <=? nlen s) && equal (slice (nlen s - nlen suffix) (nlen suffix) s) suffix.

(** ** Substrings *)
(** basic_string::substr(pos, n) for pos <= size(): to the end if shorter. *)
Definition substr (s : list N) (pos n : N) : list N := firstn (N.to_nat n) (skipn (N.to_nat pos) s).
(** GSString.cpp:1292-1304. *)
Definition trim_left_invalid (s : list N) : list N :=
  match s with [] => [] | c :: r => if (56320 <=? c) && (c <=? 57343) then r else s end.
(** GSString.cpp:1308-1320. *)
Definition trim_right_invalid (s : list N) : list N :=
  match s with
  | [] => []
  | _ :: _ => if (55296 <=? last s 0) && (last s 0 <=? 56319) then removelast s else s
  end.
(** GSString.cpp:1324-1336. *)
Definition trim_invalid (s : list N) : list N := trim_right_invalid (trim_left_invalid s).
(** [Truncate], GSString.cpp:627-636. *)
Definition truncate (s : list N) (len : N) : list N :=
  if len <? nlen s then trim_right_invalid (firstn (N.to_nat len) s) else s.
(** [Mid], GSString.cpp:1918-1930. *)
Definition mid (s : list N) (nFirst len : N) : list N :=
  if nlen s <=? nFirst then [] else trim_invalid (substr s nFirst len).
(** [Left], GSString.cpp:1935-1938. *)
Definition left (s : list N) (len : N) : list N := trim_right_invalid (substr s 0 len).
(** [Right], GSString.cpp:1943-1955. *)
Definition right (s : list N) (len : N) : list N :=
  if nlen s <=? len then s else trim_left_invalid (skipn (N.to_nat (nlen s - len)) s).

(** ** Editing *)
(** [Insert], GSString.cpp:1012-1024. *)
Definition insert (s : list N) (pos : N) (src : list N) : list N :=
  if pos <? nlen s then firstn (N.to_nat pos) s ++ src ++ skipn (N.to_nat pos) s else s ++ src.
(** [Delete], GSString.cpp:1217-1225. *)
Definition delete (s : list N) (pos len : N) : list N :=
  if pos <? nlen s then firstn (N.to_nat pos) s ++ skipn (N.to_nat (pos + len)) s else s.
(** [TrimLeft], [TrimRight], [Trim], GSString.cpp:1241-1285. *)
Definition blanks : list N := [32; 9].
Definition npos : N := two64 - 1.
Definition trim_left (s : list N) : list N :=
  match find_not_one_of s blanks 0 with Some pos => skipn (N.to_nat pos) s | None => [] end.
Definition trim_right (s : list N) : list N :=
  match rfind_not_one_of s blanks npos with Some pos => firstn (N.to_nat (pos + 1)) s | None => [] end.
Definition trim (s : list N) : list N := trim_right (trim_left s).

(** What a loop of the library can do: end with a value, not end within the given number of
    iterations, or throw (std::out_of_range). *)
Inductive outcome (A : Type) := Done (a : A) | NoEnd | Throw.
Arguments Done {A}. Arguments NoEnd {A}. Arguments Throw {A}.

(** basic_string::replace(pos, n, str). *)
Definition ustr_replace (s : list N) (pos n : N) (str : list N) : option (list N) :=
  if nlen s <? pos then None
  else Some (firstn (N.to_nat pos) s ++ str ++ skipn (N.to_nat (pos + n)) s).

(** [Replace], GSString.cpp:1345-1381: case-sensitive loop (1373-1377). *)
Fixpoint replace_loop (fuel : nat) (s old new : list N) (dst : N) : outcome (list N) :=
  match fuel with
  | O => NoEnd
  | S f =>
    match ustr_find s old dst with
    | None => Done s
    | Some p =>
      match ustr_replace s p (nlen old) new with
      | None => Throw
      | Some s' => replace_loop f s' old new (p + nlen new)
      end
    end
  end.
(** Loop ignoring case (1357-1369): the search runs in the lower-case copy of the original text,
    [deltaSum] is the accumulated difference of the lengths modulo 2^64.  The cast of the old text's
    length to int (1360) is taken to be the identity, i.e. that length is below 2^31. *)
Fixpoint replace_loop_ic (fuel : nat) (s lowerSrc old lowerOld new : list N) (src deltaSum : N)
  : outcome (list N) :=
  match fuel with
  | O => NoEnd
  | S f =>
    match ustr_find lowerSrc lowerOld src with
    | None => Done s
    | Some p =>
      match ustr_replace s ((p + deltaSum) mod two64) (nlen old) new with
      | None => Throw
      | Some s' =>
        replace_loop_ic f s' lowerSrc old lowerOld new (p + nlen old)
          ((deltaSum + (nlen new + two64 - nlen old)) mod two64)
      end
    end
  end.
Definition replace (fuel : nat) (s old new : list N) (ignoreCase : bool) : outcome (list N) :=
  if ignoreCase then replace_loop_ic fuel s (make_lower s) old (make_lower old) new 0 0
  else replace_loop fuel s old new 0.

(** [Split(char)] and [Split(TXString)], GSString.cpp:1960-2008; [fnd] is the search used.
    [Find] returns -1 as a size_t when nothing is found. *)
Definition as_size (r : option N) : N := match r with Some p => p | None => npos end.
Fixpoint split_loop (fuel : nat) (fnd : N -> option N) (s : list N) (lastOcc : N) (result : list (list N))
  : outcome (list (list N)) :=
  match fuel with
  | O => NoEnd
  | S f =>
    if lastOcc <? npos then
      let pos := as_size (fnd ((lastOcc + 1) mod two64)) in
      let result := if pos =? 0 then result
                    else result ++ [mid s lastOcc ((pos + two64 - lastOcc) mod two64)] in
      let lastOcc := (pos + 1) mod two64 in
      if lastOcc =? nlen s then Done result else split_loop f fnd s lastOcc result
    else Done result
  end.
Definition split_ch (fuel : nat) (s : list N) (ch : N) : outcome (list (list N)) :=
  split_loop fuel (fun p => tx_find_ch s ch p false) s 0 [].
Definition split_str (fuel : nat) (s sep : list N) : outcome (list (list N)) :=
  split_loop fuel (fun p => tx_find s sep p false) s 0 [].
