(** Resolving references by name, with and without lookup indexes (GDTFManager.cpp).  The user does not
    abort ([CheckAbort] is false). *)
From Coq Require Import String List NArith ZArith Bool.
From Verif Require Import Bytes Txt StringModel NumModel.
Import ListNotations.
Open Scope N_scope.

Section Lookup.
(** std::hash<std::u16string> and the number of buckets of the maps. *)
Variable hash : list N -> N.
Variable buckets : N.

(** An index: emplace for each object in turn (for example 8415-8418). *)
Definition index {A} (l : list (list N * A)) : umap A :=
  fold_left (fun m p => umap_emplace (tx_hash_no_case hash) buckets m (fst p) (snd p)) l umap_empty.
(** The loop that compares every name (for example 8138-8141). *)
Definition linear {A} (l : list (list N * A)) (ref : list N) : option A :=
  match find (fun p => txeq (fst p) ref) l with Some p => Some (snd p) | None => None end.
(** The accessors of the fixture: [getWheelByRef] 8206-8224, [getEmiterByRef] 8226-8244, [getFilterByRef]
    8246-8264, [getConnectorByRef] 8266-8284, [getColorSpaceByRef] 8286-8304, [getGamutByRef] 8306-8324,
    [getDMXProfileByRef] 8326-8344, the model in [ResolveGeometryRefs_Recursive] 8531-8544.  [use] is
    fUseIndexes. *)
Definition by_ref {A} (use : bool) (l : list (list N * A)) (ref : list N) : option A :=
  if use then umap_find (tx_hash_no_case hash) buckets (index l) ref else linear l ref.

(** What stands for the pointers. *)
Context {P : Type}.
(** ** Geometries *)
Inductive geo := Geo (name : list N) (id : P) (kids : list geo).
(** [ResolveGeometryRef], 9073-9091, without index; the same search is in 8996-9001. *)
Fixpoint resolve_geo (ref : list N) (g : geo) : option P :=
  match g with
  | Geo name id kids =>
    if txeq name ref then Some id
    else (fix go l := match l with [] => None | x :: r => match resolve_geo ref x with Some i => Some i | None => go r end end) kids
  end.
Fixpoint resolve_geos (ref : list N) (l : list geo) : option P :=
  match l with [] => None | x :: r => match resolve_geo ref x with Some i => Some i | None => resolve_geos ref r end end.
(** [IndexGeometryTree], 8493-8500: the order in which the tree is added. *)
Fixpoint flatten (g : geo) : list (list N * P) :=
  match g with Geo name id kids => (name, id) :: flat_map flatten kids end.
Definition geometry_by_ref (use : bool) (l : list geo) (ref : list N) : option P :=
  if use then umap_find (tx_hash_no_case hash) buckets (index (flat_map flatten l)) ref else resolve_geos ref l.

(** ** Attributes *)
(** An attribute with its sub-physical units.  [Created] is the attribute made by
    [CreateNoFeatureAttribute], 8158-8204. *)
Inductive attr := Attr (id : P) | Created.
Record attrs := mkAttrs { at_list : list (list N * attr); at_index : umap attr; at_use : bool; at_none : option attr }.
Definition no_feature : list N := T"NoFeature".
(** [BuildLookupIndexes], 8379-8418, for the attributes; [total] is the number of objects counted in
    8395-8402. *)
Definition build_attrs (l : list (list N * attr)) (total : N) : attrs :=
  mkAttrs l (index l) (128 <=? total) (linear l no_feature).
Definition create (s : attrs) : attrs :=
  mkAttrs (at_list s ++ [(no_feature, Created)]) (at_index s) (at_use s) (Some Created).
(** [getAttributeByRef], 8120-8156. *)
Definition get_attribute (s : attrs) (ref : list N) : option attr * attrs :=
  let none := match at_none s with None => (Some Created, create s) | Some a => (Some a, s) end in
  if txeq ref no_feature then none
  else
    match (if at_use s then umap_find (tx_hash_no_case hash) buckets (at_index s) ref else linear (at_list s) ref) with
    | Some a => (Some a, s)
    | None => if nlen ref =? 0 then none else (at_none s, s)
    end.
Fixpoint get_attributes (s : attrs) (refs : list (list N)) : list (option attr) :=
  match refs with
  | [] => []
  | r :: rest => let '(a, s') := get_attribute s r in a :: get_attributes s' rest
  end.
(** [getSubPhysicalUnitByRef], 8346-8367: the units of all attributes in turn. *)
Definition unit_by_ref (use : bool) (l : list (list (list N * P))) (ref : list N) : option P :=
  if use then umap_find (tx_hash_no_case hash) buckets (index (List.concat l)) ref
  else (fix go l := match l with [] => None | us :: r => match linear us ref with Some u => Some u | None => go r end end) l.

(** ** Channels and channel functions of a mode *)
(** Names of the geometry and of the attributes; [None] if not resolved.  [f_name] is the Name attribute;
    the generated names are empty when the file has been read. *)
Record func := mkFunc { f_name : list N; f_attr : option (list N); f_id : P }.
Record logical := mkLog { l_attr : option (list N); l_funcs : list func }.
Record channel := mkCh { h_name : list N; h_geo : option (list N); h_logical : list logical; h_id : P }.
Definition text_or_empty (o : option (list N)) : list N := match o with Some t => t | None => [] end.
(** [GdtfDmxChannel::GetName], 5647-5663: undefined if the first logical channel has no attribute. *)
Definition channel_name (c : channel) : res (list N) :=
  if nlen (h_name c) =? 0 then
    match h_logical c with
    | [] => Ok (text_or_empty (h_geo c) ++ T"_")
    | l :: _ => match l_attr l with None => UB | Some a => Ok (text_or_empty (h_geo c) ++ T"_" ++ a) end
    end
  else Ok (h_name c).
(** [GdtfDmxLogicalChannel::GetNodeReference], 5938-5941 and 5948-5959. *)
Definition logical_ref (c : channel) (l : logical) : res (list N) :=
  do n <- channel_name c; Ok (n ++ T"." ++ text_or_empty (l_attr l)).
(** [GdtfDmxChannelFunction::GetNodeReference], 6451-6465; [i] is its position ([GetNumberInParent],
    6467-6481). *)
Definition numbered (a : list N) (i : N) : list N := a ++ T" " ++ itoa (Z.of_N i).
Definition function_ref (c : channel) (l : logical) (i : N) (f : func) : res (list N) :=
  let name := if nlen (f_name f) =? 0 then match f_attr f with Some a => numbered a i | None => [] end else f_name f in
  do n <- logical_ref c l; Ok (n ++ T"." ++ name).
(** All functions of a mode with their references, in the order of the loops 5070-5076 and 5105-5113. *)
Fixpoint func_entries (c : channel) (l : logical) (i : N) (fs : list func) : res (list (list N * P)) :=
  match fs with
  | [] => Ok []
  | f :: r => do n <- function_ref c l i f; do rest <- func_entries c l (i + 1) r; Ok ((n, f_id f) :: rest)
  end.
Fixpoint log_entries (c : channel) (ls : list logical) : res (list (list N * P)) :=
  match ls with
  | [] => Ok []
  | l :: r => do a <- func_entries c l 1 (l_funcs l); do rest <- log_entries c r; Ok (a ++ rest)
  end.
Fixpoint entries (cs : list channel) : res (list (list N * P) * list (list N * P)) :=
  match cs with
  | [] => Ok ([], [])
  | c :: r =>
    do n <- channel_name c; do fs <- log_entries c (h_logical c); do rest <- entries r;
    Ok ((n, h_id c) :: fst rest, fs ++ snd rest)
  end.
(** [AutoGenerateNames], 8047-8117. *)
Fixpoint name_funcs (fs : list func) (number : N) : list func :=
  match fs with
  | [] => []
  | f :: r =>
    if nlen (f_name f) =? 0 then
      match f_attr f with
      | None => f :: name_funcs r number
      | Some a => mkFunc (numbered a number) (f_attr f) (f_id f) :: name_funcs r (number + 1)
      end
    else f :: name_funcs r (number + 1)
  end.
Definition name_logical (l : logical) : logical :=
  match l_attr l with None => l | Some _ => mkLog (l_attr l) (name_funcs (l_funcs l) 1) end.
Fixpoint first_attr (ls : list logical) : option (list N) :=
  match ls with [] => None | l :: r => match l_attr l with Some a => Some a | None => first_attr r end end.
Definition name_channel (c : channel) : channel :=
  match h_geo c with
  | None => c
  | Some g =>
    mkCh (match first_attr (h_logical c) with Some a => g ++ T"_" ++ a | None => h_name c end)
      (h_geo c) (map name_logical (h_logical c)) (h_id c)
  end.
(** [ResolveDmxModeRefs], 8843-8853: [BuildModeIndexes] (5058-5079) before [AutoGenerateNames]; the lookups
    come later.  Without an index ([GetChannelByIndex] 5081-5094, [GetFunctionByIndex] 5096-5115,
    [GetMasterByRef] 5011-5029, [GetSlaveByRef] 5031-5056) the names are compared one after the other;
    a name that cannot be formed is undefined behaviour when the loop reaches it. *)
Definition indexed (cs : list channel) : bool := 64 <=? N.of_nat (List.length cs).
Fixpoint linear_channel (cs : list channel) (ref : list N) : res (option P) :=
  match cs with
  | [] => Ok None
  | c :: r => do n <- channel_name c; if txeq n ref then Ok (Some (h_id c)) else linear_channel r ref
  end.
Fixpoint linear_funcs (c : channel) (l : logical) (i : N) (fs : list func) (ref : list N) : res (option P) :=
  match fs with
  | [] => Ok None
  | f :: r => do n <- function_ref c l i f; if txeq n ref then Ok (Some (f_id f)) else linear_funcs c l (i + 1) r ref
  end.
Fixpoint linear_logs (c : channel) (ls : list logical) (ref : list N) : res (option P) :=
  match ls with
  | [] => Ok None
  | l :: r => do x <- linear_funcs c l 1 (l_funcs l) ref; match x with Some i => Ok (Some i) | None => linear_logs c r ref end
  end.
Fixpoint linear_function (cs : list channel) (ref : list N) : res (option P) :=
  match cs with
  | [] => Ok None
  | c :: r => do x <- linear_logs c (h_logical c) ref; match x with Some i => Ok (Some i) | None => linear_function r ref end
  end.
(** The number of channels decides between the two; [use] stands for that decision. *)
Definition channel_by_ref (use : bool) (cs : list channel) (ref : list N) : res (option P) :=
  if use then do e <- entries cs; Ok (umap_find (tx_hash_no_case hash) buckets (index (fst e)) ref)
  else linear_channel (map name_channel cs) ref.
Definition function_by_ref (use : bool) (cs : list channel) (ref : list N) : res (option P) :=
  if use then
    do e <- entries cs;
    match snd e with
    | [] => linear_function (map name_channel cs) ref
    | _ => Ok (umap_find (tx_hash_no_case hash) buckets (index (snd e)) ref)
    end
  else linear_function (map name_channel cs) ref.
End Lookup.
