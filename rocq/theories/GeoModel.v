(** Break list and DMX footprint of a mode (GDTFManager.cpp).  The user does not abort ([CheckAbort] is
    false).  Geometries are numbered; the number stands for the pointer.  Children are never null. *)
From Coq Require Import List NArith ZArith Bool.
From Verif Require Import Bytes NumModel DmxModel.
Import ListNotations.
Open Scope N_scope.

(** GdtfGeometryReference, GDTFManager.cpp:4746-4850: the linked geometry (null if the link could not be
    resolved, 8559-8575) and the breaks (Sint32 id, Uint16 address), GdtfBreak 4656-4740. *)
Record gref := mkRef { r_link : option N; r_breaks : list (Z * N) }.
(** A geometry: its children (GetInternalGeometries), and the reference if it is one. *)
Record gnode := mkGeo { g_kids : list N; g_ref : option gref }.
Definition store := N -> gnode.
(** A channel: geometry (may be null), break (0 is "overwrite", GDTFManager.h:81), offsets. *)
Record chan := mkChan { c_geo : option N; c_break : Z; c_offs : N * N * N * N }.

Definition link_list (o : option N) : list N := match o with Some g => [g] | None => [] end.
Definition kids (h : store) (g : N) : list N := g_kids (h g).
(** 5211-5229: children and the linked geometry.  The code pushes a null link and skips it later; here it
    is not pushed. *)
Definition kids_links (h : store) (g : N) : list N :=
  g_kids (h g) ++ match g_ref (h g) with Some r => link_list (r_link r) | None => [] end.

(** The loops over a stack of geometries: take the last one, push its successors (5201-5229, 5283-5295,
    5313-5345, 5355-5374, 5383-5399).  The head of the list is the back of the vector.  The result lists
    the geometries in the order they are taken. *)
Fixpoint walk (succ : N -> list N) (fuel : nat) (stack : list N) : res (list N) :=
  match stack with
  | [] => Ok []
  | g :: r =>
    match fuel with
    | O => Loop
    | S f => do l <- walk succ f (rev (succ g) ++ r); Ok (g :: l)
    end
  end.

(** std::find followed by push_back, as in 5245-5248, 5254-5257 and 5333-5336. *)
Definition add_new (x : Z) (l : list Z) : list Z := if existsb (Z.eqb x) l then l else l ++ [x].
(** std::sort on Sint32. *)
Fixpoint insert (x : Z) (l : list Z) : list Z :=
  match l with [] => [x] | y :: r => if (x <=? y)%Z then x :: l else y :: insert x r end.
Definition sort_z (l : list Z) : list Z := fold_right insert [] l.

Definition same_geo (a b : option N) : bool :=
  match a, b with Some x, Some y => x =? y | None, None => true | _, _ => false end.

(** [refBreaks.back()]: undefined for an empty vector. *)
Fixpoint back {A} (l : list A) : res A :=
  match l with [] => UB | [a] => Ok a | _ :: r => back r end.

(** 5240-5250: the references that link to the geometry of an overwrite channel. *)
Fixpoint add_refs (geo : option N) (refs : list gref) (breaks : list Z) : res (list Z) :=
  match refs with
  | [] => Ok breaks
  | r :: rest =>
    if same_geo (r_link r) geo then do b <- back (r_breaks r); add_refs geo rest (add_new (fst b) breaks)
    else add_refs geo rest breaks
  end.
(** 5233-5259. *)
Fixpoint add_channels (refs : list gref) (chans : list chan) (breaks : list Z) : res (list Z) :=
  match chans with
  | [] => Ok breaks
  | c :: rest =>
    if (c_break c =? 0)%Z then do breaks <- add_refs (c_geo c) refs breaks; add_channels refs rest breaks
    else add_channels refs rest (add_new (c_break c) breaks)
  end.
Definition refs_of (h : store) (geos : list N) : list gref :=
  flat_map (fun g => match g_ref (h g) with Some r => [r] | None => [] end) geos.
(** [GdtfDmxMode::GetBreakArray], 5186-5266. *)
Definition break_array (fuel : nat) (h : store) (root : option N) (chans : list chan) : res (list Z) :=
  do geos <- walk (kids_links h) fuel (link_list root);
  do breaks <- add_channels (refs_of h geos) chans [];
  Ok (sort_z breaks).

(** [GetAddressesFromChannel], 5425-5433: Uint16 arithmetic. *)
Definition addresses (c : chan) (offset : N) : list N :=
  let '(coarse, fine, ultra, uber) := c_offs c in
  let reso := bit_resolution (c_offs c) in
  map (fun a => (a + offset) mod 65536)
    ((if 1 <=? reso then [coarse] else []) ++ (if 2 <=? reso then [fine] else []) ++
     (if 3 <=? reso then [ultra] else []) ++ (if 4 <=? reso then [uber] else [])).
(** The channels at a geometry with a given break, 5298-5305, 5364-5373, 5391-5398. *)
Definition at_geo (g : N) (c : chan) : bool := same_geo (c_geo c) (Some g).
Definition chan_addresses (chans : list chan) (b : Z) (offset : N) (g : N) : list N :=
  flat_map (fun c => if at_geo g c && (c_break c =? b)%Z && negb (is_virtual (c_offs c)) then addresses c offset else []) chans.

(** 5316-5347: the break ids of the channels in the referenced tree, sorted, and whether there is an
    overwrite channel. *)
Definition ref_channels (chans : list chan) (tree : list N) : list chan :=
  flat_map (fun g => filter (at_geo g) chans) tree.
Definition ref_ids (cs : list chan) : list Z :=
  sort_z (fold_left (fun l c => if (c_break c =? 0)%Z then l else add_new (c_break c) l) cs []).
Definition has_overwrite (cs : list chan) : bool := existsb (fun c => (c_break c =? 0)%Z) cs.
(** std::find of a size_t in a vector of Sint32: the elements are converted to 64-bit unsigned. *)
Fixpoint find_index (b : N) (l : list Z) : option nat :=
  match l with
  | [] => None
  | z :: r => if to_unsigned 64 z =? b then Some O else option_map S (find_index b r)
  end.
(** [GetDmxAddress() - 1], an int, passed as DMXAddress (5354, 5396). *)
Definition ref_offset (address : N) : N := to_unsigned 16 (Z.of_N address - 1).
(** 5355-5374 and 5383-5399: the addresses of the channels with break [b] in the referenced tree.  A null
    link would be dereferenced here. *)
Definition ref_part (fuel : nat) (h : store) (chans : list chan) (b : Z) (offset : N) (link : option N) : res (list N) :=
  match link with
  | None => UB
  | Some l => do tree <- walk (kids h) fuel [l]; Ok (flat_map (chan_addresses chans b offset) tree)
  end.
(** 5308-5402: a geometry reference. *)
Definition ref_addresses (fuel : nat) (h : store) (chans : list chan) (breakId : N) (r : gref) : res (list N) :=
  let b := to_signed 32 (Z.of_N breakId) in
  do tree <- walk (kids h) fuel (link_list (r_link r));
  let cs := ref_channels chans tree in
  do own <-
    match find_index breakId (ref_ids cs) with
    | None => Ok []
    | Some i =>
      match nth_error (r_breaks r) i with
      | None => UB
      | Some brk => ref_part fuel h chans b (ref_offset (snd brk)) (r_link r)
      end
    end;
  do over <-
    if has_overwrite cs then
      do brk <- back (r_breaks r);
      if (fst brk =? b)%Z then ref_part fuel h chans 0 (ref_offset (snd brk)) (r_link r) else Ok []
    else Ok [];
  Ok (own ++ over).
(** 5291-5402: one geometry. *)
Definition geo_addresses (fuel : nat) (h : store) (chans : list chan) (breakId : N) (g : N) : res (list N) :=
  let own := chan_addresses chans (to_signed 32 (Z.of_N breakId)) 0 g in
  match g_ref (h g) with
  | None => Ok own
  | Some r => do more <- ref_addresses fuel h chans breakId r; Ok (own ++ more)
  end.
(** 5404-5411: keep each address once. *)
Definition add_address (l : list N) (a : N) : list N := if existsb (N.eqb a) l then l else l ++ [a].
Fixpoint all_addresses (fuel : nat) (h : store) (chans : list chan) (breakId : N) (geos : list N) (acc : list N) : res (list N) :=
  match geos with
  | [] => Ok acc
  | g :: r => do l <- geo_addresses fuel h chans breakId g; all_addresses fuel h chans breakId r (fold_left add_address l acc)
  end.
(** 5414-5421: [max] starts at 0 and [min] at 512; the difference is stored in a Uint16. *)
Definition span (l : list N) : N :=
  let mx := fold_left (fun m a => if m <? a then a else m) l 0 in
  let mn := fold_left (fun m a => if a <? m then a else m) l 512 in
  to_unsigned 16 (Z.of_N mx - Z.of_N mn + 1).
(** [GdtfDmxMode::GetFootPrintForBreak], 5268-5424. *)
Definition footprint (fuel : nat) (h : store) (root : option N) (chans : list chan) (breakId : N) : res N :=
  do breaks <- break_array fuel h root chans;
  match find_index breakId breaks with
  | None => Ok 0
  | Some _ =>
    do geos <- walk (kids h) fuel (link_list root);
    do l <- all_addresses fuel h chans breakId geos [];
    Ok (span l)
  end.
